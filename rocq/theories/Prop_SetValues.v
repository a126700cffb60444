(** * C107, continued: numbers in programs *)
From Coq Require Import ZArith List Bool Lia.
From Verif Require Import Py SetLanguage.
Import ListNotations.
Open Scope Z_scope.

(** True is 1 and False is 0. *)
Inductive number : val -> Z -> Prop :=
| n_int z : number (VInt z) z
| n_true : number (VBool true) 1
| n_false : number (VBool false) 0.
(** *** [range(a, b, step)] and [a + k]: a ValueError for a step of 0, a TypeError for what is no number. *)
Theorem C107_numbers : forall g a b k v w, value g a = Ok v -> value g b = Ok w ->
  (forall y, number v y -> value g (APlus a k) = Ok (VInt (y + k))) /\
  (forall y z, number v y -> number w z -> value g (ARange a b k) = if Z.eq_dec k 0 then Err ValueError else Ok (VRange y z k)) /\
  ((forall y, ~ number v y) -> value g (APlus a k) = Err TypeError) /\
  ((forall y, ~ number v y) \/ (forall z, ~ number w z) -> value g (ARange a b k) = Err TypeError).
Proof.
  intros g a b k v w A B.
  assert (P : forall v y, number v y -> as_int v = Ok y) by (intros ? ? []; reflexivity).
  assert (Q : forall v, (forall y, ~ number v y) -> as_int v = Err TypeError).
  { intros u H. destruct u as [|z|x| | |]; try reflexivity; exfalso; [exact (H z (n_int z))|destruct x; [exact (H 1 n_true)|exact (H 0 n_false)]]. }
  assert (D : forall v, (exists y, as_int v = Ok y) \/ as_int v = Err TypeError) by (intros []; cbn; eauto).
  cbn [value]. rewrite A, B. cbn [bind]. split; [|split; [|split]].
  - intros y Y. rewrite (P v y Y). reflexivity.
  - intros y z Y Z. rewrite (P v y Y), (P w z Z). cbn [bind]. destruct (Z.eq_dec k 0) as [->|N]; [reflexivity|]. apply Z.eqb_neq in N. rewrite N. reflexivity.
  - intros H. rewrite (Q v H). reflexivity.
  - intros [H|H]; [rewrite (Q v H); reflexivity|]. rewrite (Q w H). destruct (D v) as [[y E]|E]; rewrite E; reflexivity.
Qed.
Print Assumptions C107_numbers.
Example C107_numbers_case : value no_names (ARange (ABool true) (AInt 5) 2) = Ok (VRange 1 5 2) /\ value no_names (ARange (AInt 1) (AInt 5) 0) = Err ValueError /\
  value no_names (APlus (ABool true) 1) = Ok (VInt 2) /\ value no_names (APlus ANone 1) = Err TypeError.
Proof. repeat split. Qed.
