(** * The modules of constants: comparing modules and dictionaries. *)
From Coq Require Import ZArith List Bool Lia.
From Verif Require Import Py Dict PyModule.
Import ListNotations.
Open Scope Z_scope.

Fixpoint pval_eqb_eq (a : pval) : forall b, pval_eqb a b = true -> a = b.
Proof.
  destruct a as [x|s|l|l2|d|]; intros b H; destruct b as [y|t|m|m2|e|]; cbn in H; try discriminate.
  - apply Z.eqb_eq in H. congruence.
  - apply str_eqb_eq in H. congruence.
  - f_equal. revert m H. induction l as [|u l IH]; intros [|v m] H; try discriminate; [reflexivity|].
    destruct (pval_eqb u v) eqn:E; [|discriminate]. f_equal; [apply pval_eqb_eq; exact E|apply IH; exact H].
Qed.
Fixpoint pval_eqb_refl (a : pval) : hashable a = true -> pval_eqb a a = true.
Proof.
  destruct a as [x|s|l|l2|d|]; intros H; cbn in *; try discriminate.
  - apply Z.eqb_refl.
  - apply str_eqb_refl.
  - induction l as [|u l IH]; cbn in *; [reflexivity|]. apply andb_prop in H. destruct H as [H1 H2].
    rewrite pval_eqb_refl by exact H1. apply IH. exact H2.
Qed.

Lemma dict_find_In (d : dict pval) n v : dict_find d n = Some v -> In (n, v) d.
Proof.
  induction d as [|[j w] r IH]; cbn; [discriminate|]. destruct (str_eqb j n) eqn:E.
  - apply str_eqb_eq in E. intros [= ->]. subst. left. reflexivity.
  - intros H. right. apply IH. exact H.
Qed.
Lemma vd_find_In d k v : vd_find d k = Some v -> In (k, v) d.
Proof.
  induction d as [|[j w] r IH]; cbn; [discriminate|]. destruct (pval_eqb j k) eqn:E.
  - apply pval_eqb_eq in E. intros [= ->]. subst. left. reflexivity.
  - intros H. right. apply IH. exact H.
Qed.

(** a module's dictionary [name] *)
Definition mdict (env : dict pval) (name : str) : list (pval * pval) :=
  match dict_find env name with Some (VDict d) => d | _ => [] end.
Definition is_dict (v : pval) : bool := match v with VDict _ => true | _ => false end.

Definition mem (n : str) (l : list str) : bool := existsb (str_eqb n) l.
Lemma mem_In n l : mem n l = true -> In n l.
Proof. unfold mem. rewrite existsb_exists. intros [x [H E]]. apply str_eqb_eq in E. subst. exact H. Qed.

(** every constant of [env], renamed, is a constant of [hdr] with the same value *)
Definition consts_in (env hdr : dict pval) (rename : str -> str) (exc : list str) : bool :=
  forallb (fun '(n, v) => if is_dict v then true else if mem n exc then true else
    match dict_find hdr (rename n) with Some w => pval_eqb w v | None => false end) env.
Lemma consts_in_ok env hdr rename exc : consts_in env hdr rename exc = true ->
  forall n v, dict_find env n = Some v -> is_dict v = false -> ~ In n exc -> dict_find hdr (rename n) = Some v.
Proof.
  unfold consts_in. rewrite forallb_forall. intros H n v F D N. specialize (H _ (dict_find_In _ _ _ F)). cbn in H.
  rewrite D in H. destruct (mem n exc) eqn:M; [apply mem_In in M; contradiction|].
  destruct (dict_find hdr (rename n)) as [w|]; [|discriminate]. apply pval_eqb_eq in H. congruence.
Qed.

(** two dictionaries have the same entries except at the keys [exc] *)
Definition opt_eqb (a b : option pval) : bool :=
  match a, b with Some x, Some y => pval_eqb x y | None, None => true | _, _ => false end.
Definition vmem (k : pval) (l : list pval) : bool := existsb (pval_eqb k) l.
Definition same_but (d e : list (pval * pval)) (exc : list pval) : bool :=
  forallb (fun '(k, _) => if vmem k exc then true else opt_eqb (vd_find d k) (vd_find e k)) (d ++ e).
Lemma same_but_ok d e exc : same_but d e exc = true -> forall k, ~ In k exc -> vd_find d k = vd_find e k.
Proof.
  unfold same_but. rewrite forallb_forall. intros H k N.
  assert (G : forall v, In (k, v) (d ++ e) -> vd_find d k = vd_find e k).
  { intros v I. specialize (H _ I). cbn in H. destruct (vmem k exc) eqn:M.
    - unfold vmem in M. apply existsb_exists in M. destruct M as [x [X E]]. apply pval_eqb_eq in E. subst x. contradiction.
    - destruct (vd_find d k), (vd_find e k); cbn in H; try discriminate; [|reflexivity]. apply pval_eqb_eq in H. congruence. }
  destruct (vd_find d k) as [v|] eqn:E1.
  - apply (G v). apply in_or_app. left. apply vd_find_In. exact E1.
  - destruct (vd_find e k) as [w|] eqn:E2; [|reflexivity]. apply (G w). apply in_or_app. right. apply vd_find_In. exact E2.
Qed.

(** the keys are the integers below [n] and the names distinct *)
Fixpoint upto (n : nat) : list Z := match n with O => [] | S m => upto m ++ [Z.of_nat m] end.
Lemma upto_In n z : 0 <= z < Z.of_nat n -> In z (upto n).
Proof.
  induction n as [|n IH]; intros H; [lia|]. cbn [upto]. apply in_or_app.
  destruct (Z.eq_dec z (Z.of_nat n)) as [->|N]; [right; left; reflexivity|left; apply IH; lia].
Qed.
Definition enumeration (d : list (pval * pval)) (n : Z) : bool :=
  forallb (fun '(k, v) => match k, v with VInt i, VStr _ => (0 <=? i) && (i <? n) | _, _ => false end) d &&
  forallb (fun i => match vd_find d (VInt i) with Some _ => true | None => false end) (upto (Z.to_nat n)) &&
  forallb (fun '(k, v) => forallb (fun '(j, w) => if pval_eqb v w then pval_eqb k j else true) d) d.
Lemma enumeration_ok d n : enumeration d n = true ->
  (forall k, (exists v, vd_find d k = Some v) <-> exists i, k = VInt i /\ 0 <= i < n) /\
  (forall k v, vd_find d k = Some v -> exists s, v = VStr s) /\
  (forall k j v, vd_find d k = Some v -> vd_find d j = Some v -> k = j).
Proof.
  unfold enumeration. intros H. apply andb_prop in H. destruct H as [H H3]. apply andb_prop in H. destruct H as [H1 H2].
  rewrite forallb_forall in H1. rewrite forallb_forall in H2. rewrite forallb_forall in H3. split; [|split].
  - intros k. split.
    + intros [v F]. specialize (H1 _ (vd_find_In _ _ _ F)). cbn in H1. destruct k; try discriminate. destruct v; try discriminate.
      exists z. split; [reflexivity|]. apply andb_prop in H1. destruct H1 as [A B]. apply Z.leb_le in A. apply Z.ltb_lt in B. lia.
    + intros [i [-> R]]. assert (I : In i (upto (Z.to_nat n))) by (apply upto_In; lia). specialize (H2 i I).
      destruct (vd_find d (VInt i)) as [v|]; [exists v; reflexivity|discriminate].
  - intros k v F. specialize (H1 _ (vd_find_In _ _ _ F)). cbn in H1. destruct k; try discriminate. destruct v; try discriminate. eauto.
  - intros k j v F G. specialize (H1 _ (vd_find_In _ _ _ F)) as K1. cbn in K1.
    specialize (H3 _ (vd_find_In _ _ _ F)). cbn in H3. rewrite forallb_forall in H3.
    specialize (H3 _ (vd_find_In _ _ _ G)). cbn in H3. destruct k; try discriminate. destruct v; try discriminate.
    rewrite pval_eqb_refl in H3 by reflexivity. apply pval_eqb_eq in H3. exact H3.
Qed.
