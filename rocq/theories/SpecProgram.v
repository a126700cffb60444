(** * Programs on sets of code points

    What the author of a program may count on, in terms of mathematical sets.  [Silent] is said where the
    answer depends on how a set was made, for arguments that are no code points, and for a loop that changes
    the set it runs over. *)
From Coq Require Import ZArith List Bool.
From Verif Require Import Py SpecSet Prop_Histories SetLanguage.
Import ListNotations.
Open Scope Z_scope.

Inductive said (A : Type) : Type := Says (a : A) | Raises (e : exn) | Silent.
Arguments Says {A} a. Arguments Raises {A} e. Arguments Silent {A}.
Definition sbind {A B} (x : said A) (f : A -> said B) : said B :=
  match x with Says a => f a | Raises e => Raises e | Silent => Silent end.
Notation "'let+' x := e1 'in' e2" := (sbind e1 (fun x => e2))
  (at level 200, x pattern, e1 at level 100, e2 at level 200, right associativity).
Definition lift {A} (x : res A) : said A := match x with Ok a => Says a | Err e => Raises e end.

(** the members in order *)
Fixpoint count_up (n : nat) (c : Z) : list Z := match n with O => [] | S k => c :: count_up k (c + 1) end.
Definition members (s : cpset) : list Z := filter s (count_up (Z.to_nat 0x110000) 0).
Fixpoint position (c : Z) (l : list Z) (n : Z) : option Z :=
  match l with [] => None | x :: r => if x =? c then Some n else position c r (n + 1) end.

Definition cpb (c : Z) : bool := (0 <=? c) && (c <=? 0x10FFFF).
Definition args_ok (k : call) : bool :=
  match k with
  | NewInt x | Add _ x | Contains _ x => cpb x
  | NewRange a b => (0 <=? a) && (a <=? b) && (b <=? 0x110000)
  | AddRange _ a b | RemoveRange _ a b | RetainRange _ a b | ComplementRange _ a b => cpb a && cpb b
  | _ => true
  end.

(** [lk]: the sets over which a loop is running.  A value that is not said is [None]. *)
Definition mutate (lk : list nat) (st : store) (o : nat) (k : call) : said (store * option val) :=
  if existsb (Nat.eqb o) lk then Silent
  else if args_ok k then Says (fst (actual_call st k), Some (VSet o)) else Silent.
Definition create (st : store) (k : call) : said (store * option val) :=
  if args_ok k then Says (fst (actual_call st k), Some (VSet (length st))) else Silent.

Definition said_contains (st : store) (o : nat) (arg : val) : said (store * option val) :=
  let s := sget st o in
  match arg with
  | VInt c => if cpb c then Says (st, Some (VBool (s c))) else if c <? 0 then Says (st, Some (VBool false)) else Silent
  | VRange a b step =>
      if negb (cpb a) || negb (step =? 1) then Silent
      else if b <=? a + 1 then Says (st, Some (VBool (s a)))
      else if forallb (fun c => cpb c && s c) (range_list a b 1) then Says (st, None)
      else Says (st, Some (VBool false))
  | _ => Raises TypeError
  end.

Definition said_of_option (r : option Z) : val := match r with Some z => VInt z | None => VNone end.

Definition said_invoke (lk : list nat) (st : store) (m : meth) (o : nat) (args : list val) : said (store * option val) :=
  let s := sget st o in
  match m, args with
  | MAdd, [x] => let+ c := lift (as_int x) in mutate lk st o (Add o c)
  | MAddRange, [x; y] =>
      let+ a := lift (as_int x) in let+ b := lift (as_int y) in
      let+ (st', _) := mutate lk st o (AddRange o a b) in
      Says (st', if (b <=? a) || existsb (fun c => a <=? c) (members s) then Some (VSet o) else None)
  | MAddAll, [x] => let+ p := lift (as_set x) in mutate lk st o (AddAll o p)
  | MRemove, [x] => let+ c := lift (as_int x) in mutate lk st o (RemoveRange o c c)
  | MRemoveRange, [x; y] => let+ a := lift (as_int x) in let+ b := lift (as_int y) in mutate lk st o (RemoveRange o a b)
  | MRemoveAll, [x] => let+ p := lift (as_set x) in mutate lk st o (RemoveAll o p)
  | MRetain, [x] => let+ c := lift (as_int x) in mutate lk st o (RetainRange o c c)
  | MRetainRange, [x; y] => let+ a := lift (as_int x) in let+ b := lift (as_int y) in mutate lk st o (RetainRange o a b)
  | MRetainAll, [x] => let+ p := lift (as_set x) in mutate lk st o (RetainAll o p)
  | MComplement, [] => mutate lk st o (Complement o)
  | MComplement, [x] =>
      match x with
      | VNone => mutate lk st o (Complement o)
      | VInt c => mutate lk st o (ComplementRange o c c)
      | VRange a b step => if step =? 1 then mutate lk st o (ComplementRange o a (b - 1)) else Silent
      | _ => Raises TypeError
      end
  | MComplementRange, [x; y] => let+ a := lift (as_int x) in let+ b := lift (as_int y) in mutate lk st o (ComplementRange o a b)
  | MComplementAll, [x] => let+ p := lift (as_set x) in mutate lk st o (ComplementAll o p)
  | MClear, [] => mutate lk st o (Clear o)
  | MContains, [x] => said_contains st o x
  | MUnion, [x] => let+ p := lift (as_set x) in create st (Union o p)
  | MIntersection, [x] => let+ p := lift (as_set x) in create st (Intersection o p)
  | MDifference, [x] => let+ p := lift (as_set x) in create st (Difference o p)
  | MSymmetricDifference, [x] => let+ p := lift (as_set x) in create st (SymmetricDifference o p)
  | MSize, [] => Says (st, Some (VInt (Z.of_nat (length (members s)))))
  | MIndexOf, [x] => let+ c := lift (as_int x) in Says (st, Some (said_of_option (position c (members s) 0)))
  | MCharAt, [x] =>
      let+ i := lift (as_int x) in
      Says (st, Some (said_of_option (if i <? 0 then None else nth_error (members s) (Z.to_nat i))))
  | _, _ => Raises TypeError
  end.

Definition said_construct (st : store) (v : val) : said (store * option val) :=
  match v with
  | VNone => create st New
  | VSet p => create st (NewCopy p)
  | VInt c => create st (NewInt c)
  | VRange a b step => if step =? 1 then create st (NewRange a b) else Silent
  | _ => Raises TypeError
  end.

Definition said_oper (st : store) (f : oper) (v w : val) : said (store * option val) :=
  match v, w with
  | VSet o, VSet p =>
      create st (match f with OOr => Union o p | OAnd => Intersection o p | OSub => Difference o p | OXor => SymmetricDifference o p end)
  | VSet _, _ => Raises AttributeError
  | _, VSet _ => Raises TypeError
  | _, _ => Silent
  end.
Definition said_aug (lk : list nat) (st : store) (f : oper) (v w : val) : said (store * option val) :=
  match v, w with
  | VSet o, VSet p =>
      mutate lk st o (match f with OOr => AddAll o p | OAnd => RetainAll o p | OSub => RemoveAll o p | OXor => ComplementAll o p end)
  | VSet _, _ => Raises AttributeError
  | _, VSet _ => Raises TypeError
  | _, _ => Silent
  end.
(** Two sets with different members are different; an object is equal to itself. *)
Definition said_equal (st : store) (v w : val) : said (option bool) :=
  match v, w with
  | VSet o, VSet p =>
      if Nat.eqb o p then Says (Some true)
      else if forallb (fun c => Bool.eqb (sget st o c) (sget st p c)) (members (fun _ => true)) then Says None
      else Says (Some false)
  | VSet _, _ => Raises AttributeError
  | _, VSet _ => Raises AttributeError
  | _, _ => Silent
  end.

Definition said_rhs (lk : list nat) (st : store) (g : env) (e : rhs) : said (store * option val) :=
  match e with
  | EAtom a => let+ v := lift (value g a) in Says (st, Some v)
  | ENew None => create st New
  | ENew (Some a) => let+ v := lift (value g a) in said_construct st v
  | ECall m s args =>
      let+ v := lift (value g s) in
      match v with
      | VSet o => let+ vs := lift (mapM (value g) args) in said_invoke lk st m o vs
      | _ => Raises AttributeError
      end
  | EOper f s t => let+ v := lift (value g s) in let+ w := lift (value g t) in said_oper st f v w
  | EIn a s =>
      let+ v := lift (value g a) in let+ w := lift (value g s) in
      match w with VSet o => said_contains st o v | VNone | VInt _ | VBool _ => Raises TypeError | _ => Silent end
  | EEq s t => let+ v := lift (value g s) in let+ w := lift (value g t) in let+ b := said_equal st v w in Says (st, option_map VBool b)
  | ENe s t =>
      let+ v := lift (value g s) in let+ w := lift (value g t) in let+ b := said_equal st v w in
      Says (st, option_map (fun b => VBool (negb b)) b)
  end.
Definition known (x : option val) : said val := match x with Some v => Says v | None => Silent end.

Definition sstate := (store * env)%type.
Fixpoint said_loop (body : sstate -> said sstate) (x : nat) (items : list val) (s : sstate) : said sstate :=
  match items with
  | [] => Says s
  | v :: r => let+ s' := body (fst s, put (snd s) x v) in said_loop body x r s'
  end.

Fixpoint said_exec (lk : list nat) (p : stmt) (s : sstate) : said sstate :=
  let (st, g) := s in
  match p with
  | SSkip => Says s
  | SSeq p q => let+ s' := said_exec lk p s in said_exec lk q s'
  | SAssign x e => let+ (st', u) := said_rhs lk st g e in let+ v := known u in Says (st', put g x v)
  | SExpr e => let+ (st', _) := said_rhs lk st g e in Says (st', g)
  | SAug x f a =>
      let+ v := lift (value g (AName x)) in let+ w := lift (value g a) in
      let+ (st', u) := said_aug lk st f v w in let+ v := known u in Says (st', put g x v)
  | SIf e p q => let+ (st', u) := said_rhs lk st g e in let+ v := known u in if truth v then said_exec lk p (st', g) else said_exec lk q (st', g)
  | SFor x a p =>
      let+ v := lift (value g a) in
      match v with
      | VSet o => said_loop (said_exec (o :: lk) p) x (map VInt (members (sget st o))) s
      | VRange a b step => said_loop (said_exec lk p) x (map VInt (range_list a b step)) s
      | VStr t => said_loop (said_exec lk p) x (map (fun c => VStr [c]) t) s
      | _ => Raises TypeError
      end
  end.
