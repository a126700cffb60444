(** * The text of a Python module of constants

    What Python's parser does with the text of the modules of PyModule.v and of those that
    module_builder writes: names, numerals, strings, the operators of [binop], tuples, lists,
    dictionaries, calls with one argument, assignments, [from .m import *] and the function
    U_MASK.  Other text is not read ([None]), though Python may accept it: this reader
    describes a part of Python's grammar (docs.python.org/3/reference, sections 2, 6 and 10). *)
From Coq Require Import ZArith List Bool Lia String.
From Verif Require Import Py Dict CharNames PyText PyModule.
Import ListNotations.
Open Scope string_scope.
Open Scope list_scope.
Open Scope Z_scope.
Local Notation length := List.length.

(** ** Tokens *)
(** [TDoc] is a text between three quotation marks, which is only used as a comment; [TOp]
    has the code of the character, or of two characters as a number to base 256 *)
Inductive tok := TName (s : str) | TInt (z : Z) | TStr (s : str) | TDoc (s : str) | TOp (c : Z) | TNl.

Definition letter (c : Z) : bool := ((65 <=? c) && (c <=? 90)) || (c =? 95) || ((97 <=? c) && (c <=? 122)).
Definition digit (c : Z) : bool := (48 <=? c) && (c <=? 57).
Definition hexVal (c : Z) : option Z :=
  if digit c then Some (c - 48)
  else if (65 <=? c) && (c <=? 70) then Some (c - 55)
  else if (97 <=? c) && (c <=? 102) then Some (c - 87) else None.
Fixpoint digitsVal (base : Z) (s : str) (acc : Z) : option Z :=
  match s with
  | [] => Some acc
  | c :: r => match hexVal c with Some v => if v <? base then digitsVal base r (acc * base + v) else None | None => None end
  end.
(** a decimal numeral has no leading zeros, unless it is a row of zeros *)
Definition intLit (s : str) : option Z :=
  match s with
  | 48 :: x :: r =>
      if (x =? 120) || (x =? 88) then match r with [] => None | _ => digitsVal 16 r 0 end
      else if forallb (Z.eqb 48) (x :: r) then Some 0 else None
  | _ => digitsVal 10 s 0
  end.
Definition blank (c : Z) : bool := (c =? 32) || (c =? 9).
(** the text up to the next three quotation marks; a backslash takes the next character with it *)
Fixpoint tripleEnd (s : str) : option (str * str) :=
  match s with
  | [] => None
  | c :: r =>
      if (c =? 34) && match r with x :: y :: _ => (x =? 34) && (y =? 34) | _ => false end then Some ([], skipn 2 r)
      else match r with
      | [] => None
      | x :: r' =>
          if c =? 92 then match tripleEnd r' with Some (a, b) => Some (92 :: x :: a, b) | None => None end
          else match tripleEnd r with Some (a, b) => Some (c :: a, b) | None => None end
      end
  end.
Definition opChar (c : Z) : bool := existsb (Z.eqb c) [40; 41; 42; 43; 44; 45; 46; 58; 61; 91; 93; 123; 124; 125; 38].
Definition opens (c : Z) : bool := (c =? 40) || (c =? 91) || (c =? 123).
Definition closes (c : Z) : bool := (c =? 41) || (c =? 93) || (c =? 125).
Definition ocons {A} (x : A) (l : option (list A)) : option (list A) := match l with Some l => Some (x :: l) | None => None end.

(** [d]: how many brackets are open, where ends of lines do not count; [bol]: is this the
    beginning of a line outside of brackets, where white space would be indentation *)
Fixpoint lexF (n : nat) (d : nat) (bol : bool) (s : str) : option (list tok) :=
  match n, s with
  | _, [] => match d with O => Some [] | _ => None end
  | O, _ => None
  | S n, c :: r =>
      if c =? 10 then match d with O => ocons TNl (lexF n d true r) | _ => lexF n d false r end
      else if blank c then
        (if bol then match span blank r with
                     | (_, []) => Some []
                     | (_, (x :: _) as r') => if (x =? 10) || (x =? 35) then lexF n d bol r' else None
                     end
         else lexF n d bol r)
      else if c =? 35 then lexF n d bol (snd (span (fun x => negb (x =? 10)) r))
      else if starts [34; 34; 34] s then match tripleEnd (skipn 3 s) with Some (a, r) => ocons (TDoc a) (lexF n d false r) | None => None end
      else if (c =? 34) || (c =? 39) then
        match span (fun x => negb ((x =? c) || (x =? 92) || (x =? 10))) r with
        | (a, x :: r) => if x =? c then ocons (TStr a) (lexF n d false r) else None
        | _ => None
        end
      else if letter c then let '(a, r) := span wordChar s in ocons (TName a) (lexF n d false r)
      else if digit c then let '(a, r) := span wordChar s in match intLit a with Some z => ocons (TInt z) (lexF n d false r) | None => None end
      else if starts [60; 60] s then ocons (TOp 0x3C3C) (lexF n d false (tl r))
      else if starts [62; 62] s then ocons (TOp 0x3E3E) (lexF n d false (tl r))
      else if starts [45; 62] s then ocons (TOp 0x2D3E) (lexF n d false (tl r))
      else if opChar c then
        (if opens c then ocons (TOp c) (lexF n (S d) false r)
         else if closes c then match d with S d => ocons (TOp c) (lexF n d false r) | O => None end
         else ocons (TOp c) (lexF n d false r))
      else None
  end.
Definition lex (s : str) : option (list tok) := lexF (length s) 0 true s.

(** ** Expressions *)
Definition keywords : list str := map lit
  ["False"; "None"; "True"; "and"; "as"; "assert"; "async"; "await"; "break"; "class"; "continue"; "def"; "del"; "elif"; "else"; "except"; "finally"; "for"; "from";
   "global"; "if"; "import"; "in"; "is"; "lambda"; "nonlocal"; "not"; "or"; "pass"; "raise"; "return"; "try"; "while"; "with"; "yield"].
Definition keyword (s : str) : bool := existsb (str_eqb s) keywords.
(** the strength of an operator: section 6.17 *)
Definition prec (c : Z) : option (Z * binop) :=
  if c =? 124 then Some (1, OpOr) else if c =? 38 then Some (2, OpAnd)
  else if c =? 0x3C3C then Some (3, OpShl) else if c =? 0x3E3E then Some (3, OpShr)
  else if c =? 43 then Some (4, OpAdd) else if c =? 45 then Some (4, OpSub)
  else if c =? 42 then Some (5, OpMul) else None.
(** [pExpr n p]: an expression whose operators outside brackets bind stronger than [p];
    [pLoop n p a]: what follows its first operand [a]; [pUnary]: an operand; [pItems n c]:
    expressions with commas between them and perhaps after them, up to the bracket [c];
    [pEntries]: the same for key: value *)
Fixpoint pExpr (n : nat) (p : Z) (ts : list tok) {struct n} : option (expr * list tok) :=
  match n with
  | O => None
  | S n => match pUnary n ts with Some (a, r) => pLoop n p a r | None => None end
  end
with pLoop (n : nat) (p : Z) (a : expr) (ts : list tok) {struct n} : option (expr * list tok) :=
  match n with
  | O => None
  | S n => match ts with
           | TOp o :: r => match prec o with
                           | Some (q, op) => if p <? q then match pExpr n q r with Some (b, r) => pLoop n p (EBin op a b) r | None => None end
                                             else Some (a, ts)
                           | None => Some (a, ts)
                           end
           | _ => Some (a, ts)
           end
  end
with pUnary (n : nat) (ts : list tok) {struct n} : option (expr * list tok) :=
  match n with
  | O => None
  | S n =>
      match ts with
      | TInt z :: r => Some (EInt z, r)
      | TStr s :: r => Some (EStr s, r)
      | TName x :: r =>
          if keyword x then None else
          match r with
          | TOp 40 :: r => match pExpr n 0 r with Some (a, TOp 41 :: r) => Some (ECall (EName x) a, r) | _ => None end
          | _ => Some (EName x, r)
          end
      | TOp c :: r =>
          if c =? 45 then match pUnary n r with Some (a, r) => Some (ENeg a, r) | None => None end
          else if c =? 91 then match pItems n 93 r with Some (l, r) => Some (EList l, r) | None => None end
          else if c =? 123 then match pEntries n r with Some (l, r) => Some (EDict l, r) | None => None end
          else if c =? 40 then
            match r with
            | TOp 41 :: r => Some (ETuple [], r)
            | _ => match pExpr n 0 r with
                   | Some (a, TOp 41 :: r) => Some (a, r)
                   | Some (a, TOp 44 :: r) => match pItems n 41 r with Some (l, r) => Some (ETuple (a :: l), r) | None => None end
                   | _ => None
                   end
            end
          else None
      | _ => None
      end
  end
with pItems (n : nat) (c : Z) (ts : list tok) {struct n} : option (list expr * list tok) :=
  match n with
  | O => None
  | S n =>
      let item := match pExpr n 0 ts with
                  | Some (a, TOp x :: r) =>
                      if x =? 44 then match pItems n c r with Some (l, r) => Some (a :: l, r) | None => None end
                      else if x =? c then Some ([a], r) else None
                  | _ => None
                  end in
      match ts with TOp x :: r => if x =? c then Some ([], r) else item | _ => item end
  end
with pEntries (n : nat) (ts : list tok) {struct n} : option (list (expr * expr) * list tok) :=
  match n with
  | O => None
  | S n =>
      let item := match pExpr n 0 ts with
                  | Some (k, TOp 58 :: r) =>
                      match pExpr n 0 r with
                      | Some (v, TOp x :: r) =>
                          if x =? 44 then match pEntries n r with Some (l, r) => Some ((k, v) :: l, r) | None => None end
                          else if x =? 125 then Some ([(k, v)], r) else None
                      | _ => None
                      end
                  | _ => None
                  end in
      match ts with TOp 125 :: r => Some ([], r) | _ => item end
  end.

(** ** Statements *)
(** [a], or [a, b, ...], up to the end of the line *)
Fixpoint pTuple (n : nat) (ts : list tok) {struct n} : option (list expr * list tok) :=
  match n with
  | O => None
  | S n =>
      match ts with
      | [] => Some ([], [])
      | TNl :: r => Some ([], r)
      | _ => match pExpr n 0 ts with
             | Some (a, []) => Some ([a], [])
             | Some (a, TNl :: r) => Some ([a], r)
             | Some (a, TOp 44 :: r) => match pTuple n r with Some (l, r) => Some (a :: l, r) | None => None end
             | _ => None
             end
      end
  end.
Definition pRight (n : nat) (ts : list tok) : option (expr * list tok) :=
  match pExpr n 0 ts with
  | Some (a, []) => Some (a, [])
  | Some (a, TNl :: r) => Some (a, r)
  | Some (a, TOp 44 :: r) => match pTuple n r with Some (l, r) => Some (ETuple (a :: l), r) | None => None end
  | _ => None
  end.
(** [def U_MASK(x: int) -> int: return 1<<x] *)
Definition maskDef : list tok :=
  [TOp 40; TName (lit "x"); TOp 58; TName (lit "int"); TOp 41; TOp 0x2D3E; TName (lit "int"); TOp 58; TName (lit "return"); TInt 1; TOp 0x3C3C; TName (lit "x"); TNl].
Definition tok_eqb (a b : tok) : bool :=
  match a, b with
  | TName s, TName t | TStr s, TStr t | TDoc s, TDoc t => str_eqb s t
  | TInt x, TInt y | TOp x, TOp y => x =? y
  | TNl, TNl => true
  | _, _ => false
  end.
Fixpoint dropToks (p ts : list tok) : option (list tok) :=
  match p, ts with
  | [], _ => Some ts
  | a :: p, b :: ts => if tok_eqb a b then dropToks p ts else None
  | _, _ => None
  end.
Section Modules.
(** the modules that can be imported *)
Variable mods : str -> option (dict pval).
Fixpoint pStmts (n : nat) (ts : list tok) : option (list stmt) :=
  match n with
  | O => None
  | S n =>
      match ts with
      | [] => Some []
      | TNl :: r => pStmts n r
      | TDoc _ :: TNl :: r => pStmts n r
      | TDoc _ :: [] => Some []
      | TName x :: r =>
          if str_eqb x (lit "from") then
            match r with
            | TOp 46 :: TName m :: TName i :: TOp 42 :: r =>
                if str_eqb i (lit "import") then
                  match mods m, r with
                  | Some env, TNl :: r => ocons (SImport env) (pStmts n r)
                  | Some env, [] => Some [SImport env]
                  | _, _ => None
                  end
                else None
            | _ => None
            end
          else if str_eqb x (lit "def") then
            match r with
            | TName f :: r => if keyword f then None else match dropToks maskDef r with Some r => ocons (SDefMask f) (pStmts n r) | None => None end
            | _ => None
            end
          else if keyword x then None
          else match r with
               | TOp 61 :: r => match pRight (4 * length r + 8) r with Some (e, r) => ocons (SAssign x e) (pStmts n r) | None => None end
               | _ => None
               end
      | _ => None
      end
  end.
Definition parseModule (s : str) : option (list stmt) :=
  match lex s with Some ts => pStmts (S (length ts)) ts | None => None end.
(** importing a module with this text *)
Definition importText (s : str) : res (dict pval) :=
  match parseModule s with Some l => exec l | None => Err SyntaxError end.
End Modules.
