(** * Upper case of lower case is a key for comparing texts without case (C116) *)
From Coq Require Import ZArith List Bool Lia ZifyBool.
From Verif Require Import Py Arr UTrie2 Runs CharRuns CaseProps CaseShipped NormShipped Prop_CaseNorm.
Import ListNotations.
Open Scope Z_scope.

(** ** One mapping after another *)
Definition total (f : Z -> res (list Z)) : Prop := forall c, code c -> exists u, f c = Ok u /\ Forall code u.
Definition andThen (f g : Z -> res (list Z)) (c : Z) : res (list Z) := let* u := f c in onText g u.
Lemma onText_total f : total f -> forall t, Forall code t -> exists u, onText f t = Ok u /\ Forall code u.
Proof.
  intros H. induction t as [|c t IH]; intros Ht; [exists []; split; [reflexivity|constructor]|]. apply Forall_cons_iff in Ht as [Hc Ht].
  destruct (H c Hc) as (a & A & Ca). destruct (IH Ht) as (b & B & Cb). exists (a ++ b). rewrite onText_cons, A, B. split; [reflexivity|]. apply Forall_app. split; assumption.
Qed.
Lemma andThen_total f g : total f -> total g -> total (andThen f g).
Proof. intros F G c Hc. unfold andThen. destruct (F c Hc) as (a & A & Ca). rewrite A. cbn [bind]. exact (onText_total g G a Ca). Qed.
Lemma onText_then f g : total f -> total g -> forall t, Forall code t -> onText (andThen f g) t = let* u := onText f t in onText g u.
Proof.
  intros F G. induction t as [|c t IH]; intros Ht; [reflexivity|]. apply Forall_cons_iff in Ht as [Hc Ht]. rewrite !onText_cons, (IH Ht). unfold andThen.
  destruct (F c Hc) as (a & A & Ca). destruct (onText_total f F t Ht) as (b & B & Cb). rewrite A, B. cbn [bind]. rewrite onText_app. reflexivity.
Qed.
Lemma onText_ext f g : (forall c, code c -> f c = g c) -> forall t, Forall code t -> onText f t = onText g t.
Proof. intros E. induction t as [|c t IH]; intros Ht; [reflexivity|]. apply Forall_cons_iff in Ht as [Hc Ht]. rewrite !onText_cons, (E c Hc), (IH Ht). reflexivity. Qed.

Notation lower := (toFullLower icu_case).
Notation upper := (toFullUpper icu_case).
Notation title := (toFullTitle icu_case).
(** ** Every character with case data *)
Definition key1 : Z -> res (list Z) := andThen lower upper.
Definition key_each (c : Z) : bool :=
  eqs (andThen upper upper c) (upper c) && (eqs (andThen lower lower c) (lower c) && (eqs (andThen upper key1 c) (key1 c) && (eqs (andThen title key1 c) (key1 c) &&
  (eqs (andThen lower key1 c) (key1 c) && eqs (andThen title upper c) (upper c))))).
Lemma key_checked : check_runs (fun a b p => Z.land p 0xB =? 0) (fun c p => key_each c) case_runs = true.
Proof. vm_cast_no_check (eq_refl true). Qed.
Lemma eqs_ok a b : eqs a b = true -> a = b.
Proof. unfold eqs. destruct a, b; try discriminate. intros H. apply list_eqb_eq in H. congruence. Qed.
Lemma key_ok c : code c -> andThen upper upper c = upper c /\ andThen lower lower c = lower c /\ andThen upper key1 c = key1 c /\ andThen title key1 c = key1 c /\
  andThen lower key1 c = key1 c /\ andThen title upper c = upper c.
Proof.
  revert c. unfold code. apply (case_checked key_each _ key_checked).
  - intros c _ (_ & _ & _ & L & U & T).
    assert (S : forall f g, f c = Ok [c] -> g c = Ok [c] -> andThen f g c = Ok [c]).
    { intros f g F G. unfold andThen. rewrite F. cbn [bind]. rewrite onText_cons, G. reflexivity. }
    assert (K : key1 c = Ok [c]) by (apply S; assumption).
    rewrite K, L, U, !(S upper), !(S lower), !(S title) by assumption. repeat (split; [reflexivity|]). reflexivity.
  - intros c H. unfold key_each in H. apply andb_true_iff in H as [H1 H]. apply andb_true_iff in H as [H2 H]. apply andb_true_iff in H as [H3 H].
    apply andb_true_iff in H as [H4 H]. apply andb_true_iff in H as [H5 H6].
    exact (conj (eqs_ok _ _ H1) (conj (eqs_ok _ _ H2) (conj (eqs_ok _ _ H3) (conj (eqs_ok _ _ H4) (conj (eqs_ok _ _ H5) (eqs_ok _ _ H6)))))).
Qed.

(** ** C116 *)
(** what a caller writes as [upper(lower(text))] *)
Definition key (text : list Z) : res (list Z) := let* l := onText lower text in onText upper l.
Lemma key1_total : total key1. Proof. exact (andThen_total _ _ lower_total upper_total). Qed.
Lemma key_text t : Forall code t -> key t = onText key1 t.
Proof. intros Ht. symmetry. exact (onText_then _ _ lower_total upper_total t Ht). Qed.
Lemma after f g h : total f -> total g -> (forall c, code c -> andThen f g c = h c) -> forall t u, Forall code t -> onText f t = Ok u -> onText g u = onText h t.
Proof.
  intros F G E t u Ht U. rewrite <- (onText_ext _ _ E t Ht), (onText_then f g F G t Ht), U. reflexivity.
Qed.
Theorem C116_again : forall text, Forall code text -> exists u l, onText upper text = Ok u /\ onText lower text = Ok l /\ onText upper u = Ok u /\ onText lower l = Ok l.
Proof.
  intros t Ht. destruct (onText_total _ upper_total t Ht) as (u & U & _). destruct (onText_total _ lower_total t Ht) as (l & L & _). exists u, l.
  split; [exact U|]. split; [exact L|]. split.
  - rewrite <- U. apply (after _ _ _ upper_total upper_total (fun c Hc => proj1 (key_ok c Hc)) t u Ht U).
  - rewrite <- L. apply (after _ _ _ lower_total lower_total (fun c Hc => proj1 (proj2 (key_ok c Hc))) t l Ht L).
Qed.
Print Assumptions C116_again.
(** the key of a text is that of its upper case, of its lower case, and of any text made by changing the case of some of its characters *)
Definition changed (c : Z) (l : list Z) : Prop := l = [c] \/ lower c = Ok l \/ upper c = Ok l \/ title c = Ok l.
Lemma changed_key c l : code c -> changed c l -> Forall code l /\ onText key1 l = key1 c.
Proof.
  intros Hc H. destruct (key_ok c Hc) as (_ & _ & KU & KT & KL & _).
  assert (G : forall f, total f -> andThen f key1 c = key1 c -> f c = Ok l -> Forall code l /\ onText key1 l = key1 c).
  { intros f F E L. destruct (F c Hc) as (u & U & Cu). assert (u = l) by congruence. subst u. split; [exact Cu|]. unfold andThen in E. rewrite L in E. exact E. }
  destruct H as [->|[L|[U|T]]].
  - split; [constructor; [exact Hc|constructor]|]. rewrite onText_cons, onText_nil. destruct (key1 c) as [k|]; [|reflexivity]. cbn [bind]. rewrite app_nil_r. reflexivity.
  - exact (G lower lower_total KL L).
  - exact (G upper upper_total KU U).
  - exact (G title title_total KT T).
Qed.
Lemma changed_text : forall text ls, Forall code text -> Forall2 changed text ls -> Forall code (concat ls) /\ onText key1 (concat ls) = onText key1 text.
Proof.
  intros text ls Ht H. induction H as [|c l t ls H _ IH]; [split; [constructor|reflexivity]|]. apply Forall_cons_iff in Ht as [Hc Ht].
  destruct (IH Ht) as [C E]. destruct (changed_key c l Hc H) as [Cl El]. cbn [concat]. split; [apply Forall_app; split; assumption|].
  rewrite onText_app, El, E, onText_cons. reflexivity.
Qed.
Theorem C116_key : forall text ls, Forall code text -> Forall2 changed text ls -> exists k, key text = Ok k /\ key (concat ls) = Ok k.
Proof.
  intros text ls Ht H. destruct (changed_text text ls Ht H) as [C E]. destruct (onText_total _ key1_total text Ht) as (k & K & _). exists k.
  rewrite (key_text text Ht), (key_text _ C), E. split; exact K.
Qed.
Print Assumptions C116_key.
Theorem C116_key_of_key : forall text, Forall code text -> exists k, key text = Ok k /\ key k = Ok k.
Proof.
  intros t Ht. destruct (onText_total _ key1_total t Ht) as (k & K & Ck). exists k. rewrite (key_text t Ht), (key_text k Ck). split; [exact K|].
  rewrite <- K. apply (after _ _ _ key1_total key1_total) with (2 := Ht) (3 := K). intros c Hc. destruct (key_ok c Hc) as (_ & _ & KU & _ & KL & _).
  unfold andThen. destruct (lower_total c Hc) as (l & L & Cl). destruct (onText_total _ upper_total l Cl) as (u & U & Cu).
  assert (Kc : key1 c = Ok u) by (unfold key1, andThen; rewrite L; exact U). rewrite Kc. cbn [bind]. rewrite <- Kc.
  rewrite (after upper key1 key1 upper_total key1_total (fun x Hx => proj1 (proj2 (proj2 (key_ok x Hx)))) l u Cl U).
  unfold andThen in KL. rewrite L in KL. exact KL.
Qed.
Print Assumptions C116_key_of_key.
(** so texts that agree in upper or in lower case have the same key, and equivalent texts have equivalent keys *)
Theorem C116_same : forall s t u, Forall code s -> Forall code t -> (onText upper s = Ok u /\ onText upper t = Ok u \/ onText lower s = Ok u /\ onText lower t = Ok u) -> key s = key t.
Proof.
  intros s t u Hs Ht [[A B]|[A B]]; rewrite (key_text s Hs), (key_text t Ht).
  - assert (E : forall c, code c -> andThen upper key1 c = key1 c) by (intros c Hc; destruct (key_ok c Hc) as (_ & _ & K & _); exact K).
    rewrite <- (after _ _ _ upper_total key1_total E s u Hs A). exact (after _ _ _ upper_total key1_total E t u Ht B).
  - assert (E : forall c, code c -> andThen lower key1 c = key1 c) by (intros c Hc; destruct (key_ok c Hc) as (_ & _ & _ & _ & K & _); exact K).
    rewrite <- (after _ _ _ lower_total key1_total E s u Hs A). exact (after _ _ _ lower_total key1_total E t u Ht B).
Qed.
Print Assumptions C116_same.
Theorem C116_canonical : forall s t, Forall code s -> Forall code t -> equivalent s t -> exists j k, key s = Ok j /\ key t = Ok k /\ equivalent j k.
Proof.
  intros s t Hs Ht E. destruct (C114_equivalent s t Hs Ht E) as [_ (l & m & L & M & E2)].
  destruct (onText_total _ lower_total s Hs) as (l' & L' & Cl). assert (l' = l) by congruence. subst l'.
  destruct (onText_total _ lower_total t Ht) as (m' & M' & Cm). assert (m' = m) by congruence. subst m'.
  destruct (C114_equivalent l m Cl Cm E2) as [(u & v & U & V & E3) _]. exists u, v. unfold key. rewrite L, M. split; [exact U|]. split; [exact V|exact E3].
Qed.
Print Assumptions C116_canonical.
(** the other order is no key: U+1E9E and its lower case have different ones *)
Theorem C116_other_order : exists s l u m v w, onText lower s = Ok l /\ onText upper s = Ok u /\ onText lower u = Ok v /\ onText upper l = Ok m /\ onText lower m = Ok w /\ v <> w.
Proof.
  exists [0x1E9E], [0xDF], [0x1E9E], [0x53; 0x53], [0xDF], [0x73; 0x73]. split; [vm_compute; reflexivity|]. split; [vm_compute; reflexivity|]. split; [vm_compute; reflexivity|].
  split; [vm_compute; reflexivity|]. split; [vm_compute; reflexivity|]. discriminate.
Qed.
Print Assumptions C116_other_order.
Example C116_case : key [0x53; 0x74; 0x72; 0x61; 0xDF; 0x65] = Ok [0x53; 0x54; 0x52; 0x41; 0x53; 0x53; 0x45] /\ key [0x1E9E] = Ok [0x53; 0x53] /\
  Forall2 changed [0xDF; 0x65] [[0x53; 0x73]; [0x45]] /\ key [0x212A] = Ok [0x4B] /\ key [0x17F] = Ok [0x53] /\ key [0x130] = Ok [0x49; 0x307].
Proof.
  split; [vm_compute; reflexivity|]. split; [vm_compute; reflexivity|]. split; [|split; [vm_compute; reflexivity|split; vm_compute; reflexivity]].
  constructor; [right; right; right; vm_compute; reflexivity|]. constructor; [right; right; left; vm_compute; reflexivity|constructor].
Qed.
