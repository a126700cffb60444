(** * What a program does with the objects of UnicodeSet.py

    The argument types are looked at as the methods do it ([type(arg) is int], so that a [bool] is not
    an int there), [self.list] is read and replaced on the heap of UnicodeSetHeap.v. *)
From Coq Require Import ZArith List Bool.
From Verif Require Import Py UnicodeSet SpecSet UnicodeSetHeap SetLanguage.
Import ListNotations.
Open Scope Z_scope.

(** [self.xxx(...)] that ends with [return self] *)
Definition self_call (h : heap) (o : nat) (k : call) : res (heap * val) :=
  let* (h', _) := do_call h k in Ok (h', VSet o).
(** a call that makes an object *)
Definition new_call (h : heap) (k : call) : res (heap * val) :=
  let* (h', out) := do_call h k in
  match out with Created n => Ok (h', VSet n) | _ => Ok (h', VNone) end.
Definition of_option (r : option Z) : val := match r with Some z => VInt z | None => VNone end.

(** UnicodeSet.py:597-606 [contains], and [__contains__] (684-686) *)
Definition contains_call (h : heap) (o : nat) (arg : val) : res (heap * val) :=
  match arg with
  | VInt c => let* (_, l) := look h o in let* b := contains l c in Ok (h, VBool b)
  | VRange a b _ => let* (_, l) := look h o in let* r := contains_range l a b in Ok (h, VBool r)
  | _ => Err TypeError
  end.

(** The methods of UnicodeSet.py:393-647, 710-719 and 743-793, by the number and types of their arguments.
    A wrong number of arguments is a TypeError of Python's call. *)
Definition invoke (h : heap) (m : meth) (o : nat) (args : list val) : res (heap * val) :=
  match m, args with
  | MAdd, [x] => let* c := as_int x in self_call h o (Add o c)
  | MAddRange, [x; y] =>
      let* a := as_int x in let* b := as_int y in
      let* (_, l) := look h o in
      let* (_, v) := addRange l a b in
      let* (h', _) := do_call h (AddRange o a b) in
      Ok (h', match v with RSelf => VSet o | RNone => VNone end)
  | MAddAll, [x] => let* p := as_set x in self_call h o (AddAll o p)
  | MRemove, [x] => let* c := as_int x in self_call h o (RemoveRange o c c)
  | MRemoveRange, [x; y] => let* a := as_int x in let* b := as_int y in self_call h o (RemoveRange o a b)
  | MRemoveAll, [x] => let* p := as_set x in self_call h o (RemoveAll o p)
  | MRetain, [x] => let* c := as_int x in self_call h o (RetainRange o c c)
  | MRetainRange, [x; y] => let* a := as_int x in let* b := as_int y in self_call h o (RetainRange o a b)
  | MRetainAll, [x] => let* p := as_set x in self_call h o (RetainAll o p)
  | MComplement, [] => self_call h o (Complement o)
  | MComplement, [x] =>
      match x with
      | VNone => self_call h o (Complement o)
      | VInt c => self_call h o (ComplementRange o c c)
      | VRange a b _ => self_call h o (ComplementRange o a (b - 1))
      | _ => Err TypeError
      end
  | MComplementRange, [x; y] => let* a := as_int x in let* b := as_int y in self_call h o (ComplementRange o a b)
  | MComplementAll, [x] => let* p := as_set x in self_call h o (ComplementAll o p)
  | MClear, [] => self_call h o (Clear o)
  | MContains, [x] => contains_call h o x
  | MUnion, [x] => let* p := as_set x in new_call h (Union o p)
  | MIntersection, [x] => let* p := as_set x in new_call h (Intersection o p)
  | MDifference, [x] => let* p := as_set x in new_call h (Difference o p)
  | MSymmetricDifference, [x] => let* p := as_set x in new_call h (SymmetricDifference o p)
  | MSize, [] => let* (_, l) := look h o in let* n := size l in Ok (h, VInt n)
  | MIndexOf, [x] => let* c := as_int x in let* (_, l) := look h o in let* r := indexOf l c in Ok (h, of_option r)
  | MCharAt, [x] => let* i := as_int x in let* (_, l) := look h o in let* r := charAt l i in Ok (h, of_option r)
  | _, _ => Err TypeError
  end.

(** UnicodeSet.py:689-708 [__init__] *)
Definition construct (h : heap) (v : val) : res (heap * val) :=
  match v with
  | VNone => new_call h New
  | VSet p => new_call h (NewCopy p)
  | VInt c => new_call h (NewInt c)
  | VRange a b _ => new_call h (NewRange a b)
  | _ => Err TypeError
  end.

(** UnicodeSet.py:656-670: an operator is the method of the left operand; if only the right operand is a set
    Python finds no method and raises TypeError.  Operators without a set are not modelled (TypeError here,
    of which nothing is claimed). *)
Definition oper_meth (f : oper) : meth :=
  match f with OOr => MUnion | OAnd => MIntersection | OSub => MDifference | OXor => MSymmetricDifference end.
Definition operate (h : heap) (f : oper) (v w : val) : res (heap * val) :=
  match v with VSet o => invoke h (oper_meth f) o [w] | _ => Err TypeError end.
(** UnicodeSet.py:672-682 the augmented assignments call the method that changes the left operand *)
Definition aug_meth (f : oper) : meth :=
  match f with OOr => MAddAll | OAnd => MRetainAll | OSub => MRemoveAll | OXor => MComplementAll end.
Definition augment (h : heap) (f : oper) (v w : val) : res (heap * val) :=
  match v with VSet o => invoke h (aug_meth f) o [w] | _ => Err TypeError end.
(** UnicodeSet.py:649-651 [__eq__] reads [other.list]; if only the right operand is a set, Python asks the right one. *)
Definition equal (h : heap) (v w : val) : res bool :=
  match v, w with
  | VSet o, VSet p => let* (_, l) := look h o in let* (_, m) := look h p in Ok (UnicodeSet.eq l m)
  | VSet _, _ => Err AttributeError
  | _, VSet _ => Err AttributeError
  | _, _ => Err TypeError
  end.

Definition eval_rhs (h : heap) (g : env) (e : rhs) : res (heap * val) :=
  match e with
  | EAtom a => let* v := value g a in Ok (h, v)
  | ENew None => new_call h New
  | ENew (Some a) => let* v := value g a in construct h v
  | ECall m s args =>
      let* v := value g s in
      match v with
      | VSet o => let* vs := mapM (value g) args in invoke h m o vs
      | _ => Err AttributeError
      end
  | EOper f s t => let* v := value g s in let* w := value g t in operate h f v w
  | EIn a s =>
      let* v := value g a in let* w := value g s in
      match w with VSet o => contains_call h o v | _ => Err TypeError end
  | EEq s t => let* v := value g s in let* w := value g t in let* b := equal h v w in Ok (h, VBool b)
  (* UnicodeSet.py:653-654 *)
  | ENe s t => let* v := value g s in let* w := value g t in let* b := equal h v w in Ok (h, VBool (negb b))
  end.

Definition state := (heap * env)%type.

(** [for x in items: body] for items that are there from the start *)
Fixpoint loop (body : state -> res state) (x : nat) (items : list val) (s : state) : res state :=
  match items with
  | [] => Ok s
  | v :: r => let* s' := body (fst s, put (snd s) x v) in loop body x r s'
  end.
(** UnicodeSet.py:819-822: the outer loop of the generator has its indices from the start, but reads [self.list]
    again for each of them; the inner one runs over a range made when it is entered. *)
Fixpoint generate (body : state -> res state) (x : nat) (o : nat) (idx : list Z) (s : state) : res state :=
  match idx with
  | [] => Ok s
  | i :: r =>
      let* (_, l) := look (fst s) o in
      let* a := py_get l i in
      let* b := py_get l (i + 1) in
      let* s' := loop body x (map VInt (py_range a b 1)) s in
      generate body x o r s'
  end.

(** A run ends with the heap and the names, or with the exception that stops it. *)
Fixpoint exec (p : stmt) (s : state) : res state :=
  let (h, g) := s in
  match p with
  | SSkip => Ok s
  | SSeq p q => let* s' := exec p s in exec q s'
  | SAssign x e => let* (h', v) := eval_rhs h g e in Ok (h', put g x v)
  | SExpr e => let* (h', _) := eval_rhs h g e in Ok (h', g)
  | SAug x f a => let* v := value g (AName x) in let* w := value g a in let* (h', u) := augment h f v w in Ok (h', put g x u)
  | SIf e p q => let* (h', v) := eval_rhs h g e in if truth v then exec p (h', g) else exec q (h', g)
  | SFor x a p =>
      let* v := value g a in
      match v with
      | VSet o => let* (_, l) := look h o in generate (exec p) x o (py_range 0 (zlen l - 1) 2) s
      | VRange a b step => loop (exec p) x (map VInt (range_list a b step)) s
      | VStr t => loop (exec p) x (map (fun c => VStr [c]) t) s
      | _ => Err TypeError
      end
  end.
