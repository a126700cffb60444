(** * Python string functions: numerals, [split], [replace]

    Only ASCII digits and white space are numerals here: [int] also takes the other
    decimal digits and spaces of Unicode.  The limit of 4300 digits that newer
    Pythons put on decimal numerals is left out. *)
From Coq Require Import ZArith List Bool Lia.
From Verif Require Import Py Dict.
Import ListNotations.
Open Scope Z_scope.

Definition isSpace (c : Z) : bool := ((9 <=? c) && (c <=? 13)) || (c =? 32).
(** the value of an ASCII digit or letter *)
Definition digitOf (c : Z) : option Z :=
  if (48 <=? c) && (c <=? 57) then Some (c - 48)
  else if (65 <=? c) && (c <=? 90) then Some (c - 55)
  else if (97 <=? c) && (c <=? 122) then Some (c - 87)
  else None.
(** Digits and single underscores between them; [need] says that a digit must come next. *)
Fixpoint digitsLoop (base : Z) (s : str) (acc : Z) (need : bool) : res Z :=
  match s with
  | [] => if need then Err ValueError else Ok acc
  | c :: r =>
      if c =? 95 then if need then Err ValueError else digitsLoop base r acc true
      else match digitOf c with
           | Some d => if d <? base then digitsLoop base r (acc * base + d) false else Err ValueError
           | None => Err ValueError
           end
  end.
Fixpoint stripLeft (s : str) : str := match s with c :: r => if isSpace c then stripLeft r else s | [] => [] end.
Definition strip (s : str) : str := rev (stripLeft (rev (stripLeft s))).
(** [0x] in front of a hexadecimal numeral, and one underscore after it *)
Definition dropPrefix (base : Z) (s : str) : str :=
  match s with
  | a :: b :: r => if (base =? 16) && (a =? 48) && ((b =? 120) || (b =? 88))
                   then match r with u :: r' => if u =? 95 then r' else r | [] => [] end
                   else s
  | _ => s
  end.
(** [int(s, base)] for the bases 10 and 16 *)
Definition py_int (s : str) (base : Z) : res Z :=
  let read := fun r => digitsLoop base (dropPrefix base r) 0 true in
  match strip s with
  | c :: r => if c =? 43 then read r else if c =? 45 then let* n := read r in Ok (- n) else read (c :: r)
  | [] => Err ValueError
  end.

(** [s.split(x)] for a string [x] of one character; [cur] is the piece so far *)
Fixpoint splitFrom (x : Z) (s cur : str) : list str :=
  match s with [] => [cur] | y :: r => if y =? x then cur :: splitFrom x r [] else splitFrom x r (cur ++ [y]) end.
Definition py_split (s : str) (x : Z) : list str := splitFrom x s [].
(** [s.replace(x, by_)] for a string [x] of one character *)
Definition py_replace (s : str) (x : Z) (by_ : str) : str := flat_map (fun y => if y =? x then by_ else [y]) s.
(** [f"{n:c}"] *)
Definition format_c (n : Z) : res str := if (0 <=? n) && (n <=? 0x10FFFF) then Ok [n] else Err OverflowError.
