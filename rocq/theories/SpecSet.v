(** * Specification: sets of code points and a store of such sets.

    Nothing here refers to the model of UnicodeSet.py. *)
From Coq Require Import ZArith List Bool.
Import ListNotations.
Open Scope Z_scope.

(** The code points are 0 .. 0x10FFFF. *)
Definition is_cp (c : Z) : Prop := 0 <= c <= 0x10FFFF.

(** A mathematical set of code points. *)
Definition cpset := Z -> bool.

Definition s_empty : cpset := fun _ => false.
Definition s_single (x : Z) : cpset := fun c => c =? x.
(** inclusive bounds *)
Definition s_span (a b : Z) : cpset := fun c => (a <=? c) && (c <=? b).
Definition s_union (A B : cpset) : cpset := fun c => A c || B c.
Definition s_inter (A B : cpset) : cpset := fun c => A c && B c.
Definition s_diff (A B : cpset) : cpset := fun c => A c && negb (B c).
Definition s_xor (A B : cpset) : cpset := fun c => xorb (A c) (B c).
Definition s_compl (A : cpset) : cpset := fun c => negb (A c).

(** Calls on a collection of set objects named 0, 1, 2, ... in order of
    creation. *)
Inductive call : Type :=
| New
| NewInt (x : Z)
| NewRange (start stop : Z)          (* UnicodeSet(range(start, stop)) *)
| NewCopy (o : nat)
| Add (o : nat) (x : Z)
| AddRange (o : nat) (a b : Z)       (* inclusive *)
| AddAll (o other : nat)
| RemoveRange (o : nat) (a b : Z)
| RemoveAll (o other : nat)
| RetainRange (o : nat) (a b : Z)
| RetainAll (o other : nat)
| ComplementRange (o : nat) (a b : Z)
| Complement (o : nat)
| ComplementAll (o other : nat)
| Clear (o : nat)
| Union (o other : nat)
| Intersection (o other : nat)
| Difference (o other : nat)
| SymmetricDifference (o other : nat)
| Contains (o : nat) (c : Z).

(** What the caller sees: a new object, an answer, or nothing of interest. *)
Inductive outcome : Type :=
| Created (o : nat)
| Answer (b : bool)
| Done.

Definition store := list cpset.

Fixpoint replace {A} (l : list A) (i : nat) (v : A) : list A :=
  match l, i with
  | [], _ => []
  | _ :: r, O => v :: r
  | x :: r, S k => x :: replace r k v
  end.

Definition sget (st : store) (o : nat) : cpset := nth o st s_empty.

Definition snew (st : store) (s : cpset) : store * outcome := (st ++ [s], Created (length st)).
Definition sset (st : store) (o : nat) (s : cpset) : store * outcome := (replace st o s, Done).

(** One call on mathematical sets: only the receiver ever changes. *)
Definition spec_call (st : store) (k : call) : store * outcome :=
  match k with
  | New => snew st s_empty
  | NewInt x => snew st (s_single x)
  | NewRange a b => snew st (s_span a (b - 1))
  | NewCopy o => snew st (sget st o)
  | Add o x => sset st o (s_union (sget st o) (s_single x))
  | AddRange o a b => sset st o (s_union (sget st o) (s_span a b))
  | AddAll o p => sset st o (s_union (sget st o) (sget st p))
  | RemoveRange o a b => sset st o (s_diff (sget st o) (s_span a b))
  | RemoveAll o p => sset st o (s_diff (sget st o) (sget st p))
  | RetainRange o a b => sset st o (s_inter (sget st o) (s_span a b))
  | RetainAll o p => sset st o (s_inter (sget st o) (sget st p))
  | ComplementRange o a b => sset st o (s_xor (sget st o) (s_span a b))
  | Complement o => sset st o (s_compl (sget st o))
  | ComplementAll o p => sset st o (s_xor (sget st o) (sget st p))
  | Clear o => sset st o s_empty
  | Union o p => snew st (s_union (sget st o) (sget st p))
  | Intersection o p => snew st (s_inter (sget st o) (sget st p))
  | Difference o p => snew st (s_diff (sget st o) (sget st p))
  | SymmetricDifference o p => snew st (s_xor (sget st o) (sget st p))
  | Contains o c => (st, Answer (sget st o c))
  end.

Fixpoint spec_run (st : store) (ks : list call) : store * list outcome :=
  match ks with
  | [] => (st, [])
  | k :: r => let (st1, o) := spec_call st k in
              let (st2, os) := spec_run st1 r in (st2, o :: os)
  end.

(** Which calls are covered when [n] objects exist: existing objects, legal code
    points and ranges; the range operations other than addRange on at least two
    code points (see C08 for a range of one code point). *)
Definition legal_call (n : nat) (k : call) : Prop :=
  match k with
  | New => True
  | NewInt x => is_cp x
  | NewRange a b => 0 <= a <= b /\ b <= 0x110000
  | NewCopy o | Complement o | Clear o => (o < n)%nat
  | Add o x | Contains o x => (o < n)%nat /\ is_cp x
  | AddRange o a b => (o < n)%nat /\ is_cp a /\ is_cp b /\ a <= b
  | RemoveRange o a b | RetainRange o a b | ComplementRange o a b =>
      (o < n)%nat /\ is_cp a /\ is_cp b /\ a < b
  | AddAll o p | RemoveAll o p | RetainAll o p | ComplementAll o p
  | Union o p | Intersection o p | Difference o p | SymmetricDifference o p =>
      (o < n)%nat /\ (p < n)%nat
  end.

Definition creates (k : call) : bool :=
  match k with
  | New | NewInt _ | NewRange _ _ | NewCopy _
  | Union _ _ | Intersection _ _ | Difference _ _ | SymmetricDifference _ _ => true
  | _ => false
  end.

Fixpoint legal_run (n : nat) (ks : list call) : Prop :=
  match ks with
  | [] => True
  | k :: r => legal_call n k /\ legal_run (if creates k then S n else n) r
  end.
