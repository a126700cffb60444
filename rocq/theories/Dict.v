(** * Dictionaries with string keys, in insertion order. *)
From Coq Require Import ZArith List Bool Lia.
From Verif Require Import Py.
Import ListNotations.
Open Scope Z_scope.

(** a [str] is the list of its code points *)
Definition str := list Z.
Definition str_eqb (a b : str) : bool := if list_eq_dec Z.eq_dec a b then true else false.
Lemma str_eqb_eq a b : str_eqb a b = true <-> a = b.
Proof. unfold str_eqb. destruct (list_eq_dec Z.eq_dec a b); split; congruence. Qed.
Lemma str_eqb_refl a : str_eqb a a = true. Proof. apply str_eqb_eq. reflexivity. Qed.

Section Dict.
  Context {V : Type}.
  Definition dict := list (str * V).
  (** [d.get(k)] *)
  Fixpoint dict_find (d : dict) (k : str) : option V :=
    match d with [] => None | (j, v) :: r => if str_eqb j k then Some v else dict_find r k end.
  (** [d[k]] *)
  Definition dict_get (d : dict) (k : str) : res V := match dict_find d k with Some v => Ok v | None => Err KeyError end.
  (** [d[k] = v] *)
  Fixpoint dict_set (d : dict) (k : str) (v : V) : dict :=
    match d with [] => [(k, v)] | (j, w) :: r => if str_eqb j k then (j, v) :: r else (j, w) :: dict_set r k v end.

  Lemma find_set d k v j : dict_find (dict_set d k v) j = if str_eqb k j then Some v else dict_find d j.
  Proof.
    induction d as [|[i w] r IH]; cbn [dict_set dict_find]; [reflexivity|].
    destruct (str_eqb i k) eqn:E; cbn [dict_find].
    - apply str_eqb_eq in E. subst i. destruct (str_eqb k j); reflexivity.
    - destruct (str_eqb i j) eqn:E2; [|exact IH]. apply str_eqb_eq in E2. subst j.
      destruct (str_eqb k i) eqn:E3; [|reflexivity]. apply str_eqb_eq in E3. subst. rewrite str_eqb_refl in E. discriminate.
  Qed.
End Dict.
Arguments dict : clear implicits.
