(** * Modules of constants.

    Blocks.py, Boundaries.py, CharDirection.py, Characters.py, DecompositionType.py,
    EastAsianWidth.py, GeneralCategories.py, JoiningTypesAndGroups.py, LayoutTypes.py,
    Scripts.py, UCDTypeDictionaries.py, uchar_h.py, uscript_h.py, ucase_h.py,
    uprops_h.py and the data modules consist of assignments of constant expressions, dictionaries of them and
    imports.  Here is what Python does with such a file; Data_Modules.v has the files
    themselves. *)
From Coq Require Import ZArith List Bool Lia.
From Verif Require Import Py Dict.
Import ListNotations.
Open Scope Z_scope.

(** the expressions these files use *)
Inductive binop := OpAdd | OpSub | OpMul | OpOr | OpAnd | OpShl | OpShr.
Inductive expr :=
| EInt (z : Z) | EStr (s : str) | EName (n : str) | ENeg (e : expr) | EBin (o : binop) (a b : expr)
| ETuple (l : list expr) | EList (l : list expr) | EDict (l : list (expr * expr)) | ECall (f a : expr).

(** values; [VMask] is the function of uchar_h.py:7, the only one these files define *)
Inductive pval :=
| VInt (z : Z) | VStr (s : str) | VTuple (l : list pval) | VList (l : list pval) | VDict (l : list (pval * pval)) | VMask.

(** [==] on integers, strings and tuples; dictionaries and functions are never compared *)
Fixpoint pval_eqb (a b : pval) : bool :=
  match a, b with
  | VInt x, VInt y => x =? y
  | VStr s, VStr t => str_eqb s t
  | VTuple l, VTuple m =>
      (fix go l m := match l, m with [] , [] => true | x :: l, y :: m => if pval_eqb x y then go l m else false | _, _ => false end) l m
  | _, _ => false
  end.
(** Can it be a dictionary key?  (a function can, but none is used as one) *)
Fixpoint hashable (a : pval) : bool :=
  match a with VInt _ | VStr _ => true | VTuple l => forallb hashable l | _ => false end.

(** [d.get(k)], [d[k]], [d[k] = v]: the first key stays, the value is the last *)
Fixpoint vd_find (d : list (pval * pval)) (k : pval) : option pval :=
  match d with [] => None | (j, v) :: r => if pval_eqb j k then Some v else vd_find r k end.
Definition vd_get (d : list (pval * pval)) (k : pval) : res pval :=
  match vd_find d k with Some v => Ok v | None => Err KeyError end.
Fixpoint vd_set (d : list (pval * pval)) (k v : pval) : list (pval * pval) :=
  match d with [] => [(k, v)] | (j, w) :: r => if pval_eqb j k then (j, v) :: r else (j, w) :: vd_set r k v end.

(** Operators on integers; sequences are never operands in these files *)
Definition binop_val (o : binop) (a b : pval) : res pval :=
  match a, b with
  | VInt x, VInt y =>
      match o with
      | OpAdd => Ok (VInt (x + y)) | OpSub => Ok (VInt (x - y)) | OpMul => Ok (VInt (x * y))
      | OpOr => Ok (VInt (Z.lor x y)) | OpAnd => Ok (VInt (Z.land x y))
      | OpShl => if y <? 0 then Err ValueError else Ok (VInt (Z.shiftl x y))
      | OpShr => if y <? 0 then Err ValueError else Ok (VInt (Z.shiftr x y))
      end
  | _, _ => Err TypeError
  end.

(** An expression, with the names [env] *)
Fixpoint eval (env : dict pval) (e : expr) : res pval :=
  match e with
  | EInt z => Ok (VInt z)
  | EStr s => Ok (VStr s)
  | EName n => match dict_find env n with Some v => Ok v | None => Err NameError end
  | ENeg a => let* v := eval env a in match v with VInt z => Ok (VInt (- z)) | _ => Err TypeError end
  | EBin o a b => let* v := eval env a in let* w := eval env b in binop_val o v w
  | ETuple l =>
      let* vs := (fix go l := match l with [] => Ok [] | a :: r => let* v := eval env a in let* vs := go r in Ok (v :: vs) end) l in
      Ok (VTuple vs)
  | EList l =>
      let* vs := (fix go l := match l with [] => Ok [] | a :: r => let* v := eval env a in let* vs := go r in Ok (v :: vs) end) l in
      Ok (VList vs)
  | EDict l =>
      let* d := (fix go l d := match l with
                               | [] => Ok d
                               | (a, b) :: r => let* k := eval env a in let* v := eval env b in
                                   if hashable k then go r (vd_set d k v) else Err TypeError
                               end) l [] in
      Ok (VDict d)
  | ECall f a =>
      let* g := eval env f in let* v := eval env a in
      match g, v with
      | VMask, VInt z => if z <? 0 then Err ValueError else Ok (VInt (Z.shiftl 1 z))
      | _, _ => Err TypeError
      end
  end.

(** [name = e]; [def U_MASK(x: int) -> int: return 1<<x]; [from .module import *] *)
Inductive stmt := SAssign (n : str) (e : expr) | SDefMask (n : str) | SImport (m : dict pval).

(** [import *] takes the names that do not begin with an underscore *)
Definition public (n : str) : bool := match n with 95 :: _ => false | _ => true end.
Fixpoint import_all (env m : dict pval) : dict pval :=
  match m with
  | [] => env
  | (n, v) :: r => import_all (if public n then dict_set env n v else env) r
  end.
Definition step (env : dict pval) (s : stmt) : res (dict pval) :=
  match s with
  | SAssign n e => let* v := eval env e in Ok (dict_set env n v)
  | SDefMask n => Ok (dict_set env n VMask)
  | SImport m => Ok (import_all env m)
  end.
Fixpoint run (env : dict pval) (l : list stmt) : res (dict pval) :=
  match l with [] => Ok env | s :: r => let* env := step env s in run env r end.
(** Importing a module *)
Definition exec (l : list stmt) : res (dict pval) := run [] l.
