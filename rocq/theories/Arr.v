(** * Read-only integer arrays (Python lists or tuples of ints).

    A table of the code is read through [aget] only.  An array is a length and a
    function, so that theorems range over all contents and the shipped tables can
    be held in trees. *)
From Coq Require Import ZArith List Bool Lia ZifyBool.
From Verif Require Import Py.
Import ListNotations.
Open Scope Z_scope.

Record arr := mkArr { alen : Z; anth : Z -> Z }.

(** [a[i]] with Python's rule for negative indices *)
Definition aget (a : arr) (i : Z) : res Z :=
  let k := if i <? 0 then i + alen a else i in
  if (0 <=? k) && (k <? alen a) then Ok (anth a k) else Err IndexError.

Lemma aget_Ok a i : 0 <= i < alen a -> aget a i = Ok (anth a i).
Proof.
  intros H. unfold aget. destruct (i <? 0) eqn:E; [lia|].
  destruct ((0 <=? i) && (i <? alen a)) eqn:E2; [reflexivity|lia].
Qed.

(** the array holding a list *)
Definition arr_of_list (l : list Z) : arr := mkArr (zlen l) (fun i => nth (Z.to_nat i) l 0).

Lemma aget_list l i : aget (arr_of_list l) i = py_get l i.
Proof.
  unfold aget, py_get, arr_of_list; simpl. set (k := if i <? 0 then i + zlen l else i).
  destruct (0 <=? k) eqn:E1; simpl.
  - destruct (k <? 0) eqn:E2; [lia|]. destruct (k <? zlen l) eqn:E3.
    + rewrite (nth_error_nth' l 0) by (unfold zlen in E3; lia). reflexivity.
    + assert (nth_error l (Z.to_nat k) = None) as -> by (apply nth_error_None; unfold zlen in E3; lia). reflexivity.
  - destruct (k <? 0) eqn:E2; [reflexivity|lia].
Qed.

(** ** Trees: fast arrays for the shipped tables *)

Inductive tree := Lf | Nd (x : Z) (l r : tree).

Fixpoint tget (t : tree) (p : positive) : Z :=
  match t with
  | Lf => 0
  | Nd x l r => match p with xH => x | xO q => tget l q | xI q => tget r q end
  end.

Fixpoint tset (t : tree) (p : positive) (v : Z) : tree :=
  match t with
  | Lf => match p with
          | xH => Nd v Lf Lf
          | xO q => Nd 0 (tset Lf q v) Lf
          | xI q => Nd 0 Lf (tset Lf q v)
          end
  | Nd x l r => match p with
                | xH => Nd v l r
                | xO q => Nd x (tset l q v) r
                | xI q => Nd x l (tset r q v)
                end
  end.

Fixpoint tree_from (p : positive) (l : list Z) (t : tree) : tree :=
  match l with [] => t | x :: r => tree_from (Pos.succ p) r (tset t p x) end.
Definition tree_of (l : list Z) : tree := tree_from 1 l Lf.

(** index 0 is stored at 1 *)
Definition arr_of_tree (n : Z) (t : tree) : arr := mkArr n (fun i => tget t (Z.to_pos (i + 1))).

Lemma tget_Lf p : tget Lf p = 0. Proof. destruct p; reflexivity. Qed.

Lemma tset_lf_other p q v : p <> q -> tget (tset Lf p v) q = 0.
Proof.
  revert q. induction p as [p IH|p IH|]; intros q H; destruct q; simpl; auto using tget_Lf;
    try (apply IH; congruence); congruence.
Qed.

Lemma tset_same t p v : tget (tset t p v) p = v.
Proof.
  revert p. induction t as [|x l IHl r IHr]; intros p.
  - induction p; simpl; auto.
  - destruct p; simpl; auto.
Qed.

Lemma tset_other t p q v : p <> q -> tget (tset t p v) q = tget t q.
Proof.
  revert p q. induction t as [|x l IHl r IHr]; intros p q H.
  - rewrite tset_lf_other by auto. rewrite tget_Lf. reflexivity.
  - destruct p, q; simpl; auto; try (apply IHl; congruence); try (apply IHr; congruence); congruence.
Qed.

Lemma tree_from_lt l : forall p t q, (q < p)%positive -> tget (tree_from p l t) q = tget t q.
Proof.
  induction l as [|x r IH]; intros p t q H; simpl; auto.
  rewrite IH by lia. apply tset_other. lia.
Qed.

Lemma tree_from_nth l : forall p t i, (i < length l)%nat ->
  tget (tree_from p l t) (Z.to_pos (Z.pos p + Z.of_nat i)) = nth i l 0.
Proof.
  induction l as [|x r IH]; intros p t i H; [simpl in H; lia|].
  destruct i as [|i]; cbn [tree_from nth].
  - rewrite tree_from_lt by lia. replace (Z.to_pos (Z.pos p + Z.of_nat 0)) with p by lia. apply tset_same.
  - rewrite <- (IH (Pos.succ p) (tset t p x)) by (simpl in H; lia). f_equal. lia.
Qed.

Lemma tree_of_nth l i : 0 <= i < zlen l -> tget (tree_of l) (Z.to_pos (i + 1)) = nth (Z.to_nat i) l 0.
Proof.
  intros H. unfold tree_of. rewrite <- (tree_from_nth l 1 Lf) by (unfold zlen in H; lia). f_equal. lia.
Qed.

(** the tree array reads the same as the list *)
Lemma aget_tree l n t : n = zlen l -> t = tree_of l -> forall i, aget (arr_of_tree n t) i = py_get l i.
Proof.
  intros -> -> i. rewrite <- aget_list. unfold aget, arr_of_tree, arr_of_list; simpl.
  set (k := if i <? 0 then i + zlen l else i).
  destruct ((0 <=? k) && (k <? zlen l)) eqn:E; [|reflexivity].
  rewrite tree_of_nth by lia. reflexivity.
Qed.

(** ** A list laid out in an array: [l] is at [i] *)
Definition stored (a : arr) (i : Z) (l : list Z) : Prop :=
  forall k, (k < length l)%nat -> aget a (i + Z.of_nat k) = Ok (nth k l 0).
Lemma stored_app a i l1 l2 : stored a i (l1 ++ l2) <-> stored a i l1 /\ stored a (i + zlen l1) l2.
Proof.
  unfold stored, zlen. split.
  - intros H. split; intros k Hk.
    + rewrite (H k) by (rewrite app_length; lia). rewrite app_nth1 by exact Hk. reflexivity.
    + replace (i + Z.of_nat (length l1) + Z.of_nat k) with (i + Z.of_nat (length l1 + k)) by lia.
      rewrite (H (length l1 + k)%nat) by (rewrite app_length; lia). rewrite app_nth2_plus. reflexivity.
  - intros [H1 H2] k Hk. rewrite app_length in Hk. destruct (Nat.lt_ge_cases k (length l1)) as [L|G].
    + rewrite app_nth1 by exact L. apply H1. exact L.
    + rewrite app_nth2 by exact G. rewrite <- H2 by lia. f_equal. lia.
Qed.
Lemma stored_hd a i x l : stored a i (x :: l) -> aget a i = Ok x.
Proof. intros H. specialize (H 0%nat ltac:(cbn; lia)). cbn in H. rewrite Z.add_0_r in H. exact H. Qed.
