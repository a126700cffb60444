(** * Programs that use UnicodeSet objects

    The part of Python a caller of UnicodeSet.py writes: names, values of several types, method calls,
    operators, [if] and [for].  This file has the syntax and what concerns no set object; the methods
    themselves are in SetProgram.v (the code) and SpecProgram.v (sets of code points). *)
From Coq Require Import ZArith List Bool.
From Verif Require Import Py.
Import ListNotations.
Open Scope Z_scope.

(** The values of a program: a set is an object, named by the order of creation. *)
Inductive val : Type :=
| VNone
| VInt (z : Z)
| VBool (b : bool)
| VRange (a b step : Z)
| VStr (t : list Z)
| VSet (o : nat).

(** Expressions without calls of UnicodeSet.py *)
Inductive atom : Type :=
| ANone
| AInt (z : Z)
| ABool (b : bool)
| AStr (t : list Z)
| AName (x : nat)
| APlus (a : atom) (k : Z)                   (* a + k *)
| ARange (a b : atom) (step : Z).            (* range(a, b, step) *)

Inductive meth : Type :=
| MAdd | MAddRange | MAddAll | MRemove | MRemoveRange | MRemoveAll | MRetain | MRetainRange | MRetainAll
| MComplement | MComplementRange | MComplementAll | MClear | MContains
| MUnion | MIntersection | MDifference | MSymmetricDifference | MSize | MIndexOf | MCharAt.

Inductive oper : Type := OOr | OAnd | OSub | OXor.

Inductive rhs : Type :=
| EAtom (a : atom)
| ENew (a : option atom)                     (* UnicodeSet(), UnicodeSet(a) *)
| ECall (m : meth) (s : atom) (args : list atom)
| EOper (f : oper) (s t : atom)              (* s | t, s & t, s - t, s ^ t *)
| EIn (a s : atom)                           (* a in s *)
| EEq (s t : atom)
| ENe (s t : atom).

Inductive stmt : Type :=
| SSkip
| SSeq (p q : stmt)
| SAssign (x : nat) (e : rhs)                (* x = e *)
| SExpr (e : rhs)
| SAug (x : nat) (f : oper) (a : atom)       (* x |= a, x &= a, x -= a, x ^= a *)
| SIf (e : rhs) (p q : stmt)
| SFor (x : nat) (a : atom) (p : stmt).      (* for x in a: p *)

Definition env := nat -> option val.
Definition no_names : env := fun _ => None.
Definition put (g : env) (x : nat) (v : val) : env := fun y => if Nat.eqb y x then Some v else g y.

(** A [bool] is an [int]; the other types cannot be compared with one. *)
Definition as_int (v : val) : res Z :=
  match v with VInt z => Ok z | VBool b => Ok (if b then 1 else 0) | _ => Err TypeError end.
(** [v.list] *)
Definition as_set (v : val) : res nat := match v with VSet o => Ok o | _ => Err AttributeError end.

Fixpoint value (g : env) (a : atom) : res val :=
  match a with
  | ANone => Ok VNone
  | AInt z => Ok (VInt z)
  | ABool b => Ok (VBool b)
  | AStr t => Ok (VStr t)
  | AName x => match g x with Some v => Ok v | None => Err NameError end
  | APlus a k => let* v := value g a in let* z := as_int v in Ok (VInt (z + k))
  | ARange a b step =>
      let* v := value g a in let* w := value g b in let* y := as_int v in let* z := as_int w in
      if step =? 0 then Err ValueError else Ok (VRange y z step)
  end.

(** the members of a Python range, in its order *)
Definition range_list (a b step : Z) : list Z :=
  map (fun k => a + Z.of_nat k * step)
      (seq 0 (Z.to_nat (if 0 <? step then (b - a + step - 1) / step else (a - b - step - 1) / - step))).

(** [if v]: UnicodeSet.py defines neither [__bool__] nor [__len__], so a set counts as true. *)
Definition truth (v : val) : bool :=
  match v with
  | VNone => false
  | VInt z => negb (z =? 0)
  | VBool b => b
  | VRange a b step => match range_list a b step with [] => false | _ => true end
  | VStr t => match t with [] => false | _ => true end
  | VSet _ => true
  end.
