(** * Python string functions and pieces of regular expressions used by module_builder

    [\s] and [str.strip] take all white space of Unicode.  [\w], [upper] and [lower] are
    restricted to ASCII: the files read here are ICU headers and ppucd.txt. *)
From Coq Require Import ZArith List Bool Lia.
From Verif Require Import Py Dict.
Import ListNotations.
Open Scope Z_scope.

(** [str.isspace], [\s] *)
Definition uSpace (c : Z) : bool :=
  ((9 <=? c) && (c <=? 13)) || ((28 <=? c) && (c <=? 32)) || (c =? 0x85) || (c =? 0xA0) || (c =? 0x1680) ||
  ((0x2000 <=? c) && (c <=? 0x200A)) || (c =? 0x2028) || (c =? 0x2029) || (c =? 0x202F) || (c =? 0x205F) || (c =? 0x3000).
(** [\w] in ASCII *)
Definition wordChar (c : Z) : bool :=
  ((48 <=? c) && (c <=? 57)) || ((65 <=? c) && (c <=? 90)) || (c =? 95) || ((97 <=? c) && (c <=? 122)).
Definition upperChar (c : Z) : Z := if (97 <=? c) && (c <=? 122) then c - 32 else c.
Definition lowerChar (c : Z) : Z := if (65 <=? c) && (c <=? 90) then c + 32 else c.
(** [s.upper()], [s.lower()] *)
Definition upper (s : str) : str := map upperChar s.
Definition lower (s : str) : str := map lowerChar s.

(** the longest run of [p] at the front, and the rest *)
Fixpoint span (p : Z -> bool) (s : str) : str * str :=
  match s with
  | c :: r => if p c then let '(a, b) := span p r in (c :: a, b) else ([], s)
  | [] => ([], [])
  end.
Definition lstrip (s : str) : str := snd (span uSpace s).
(** [s.strip()] *)
Definition trim (s : str) : str := rev (lstrip (rev (lstrip s))).

(** [s.startswith(p)], [s.endswith(p)] *)
Fixpoint starts (p s : str) : bool :=
  match p, s with
  | [], _ => true
  | x :: p', y :: s' => if x =? y then starts p' s' else false
  | _ :: _, [] => false
  end.
Definition ends (p s : str) : bool := starts (rev p) (rev s).

(** what is before and after the first [p] in [s] *)
Fixpoint cut (p s : str) : option (str * str) :=
  if starts p s then Some ([], skipn (length p) s)
  else match s with
       | [] => None
       | c :: r => match cut p r with Some (a, b) => Some (c :: a, b) | None => None end
       end.

(** [s.split(p)] for a separator that is not empty; every piece takes fuel *)
Fixpoint splitLoop (fuel : nat) (p s : str) : list str :=
  match fuel with
  | O => [s]
  | S m => match cut p s with Some (a, b) => a :: splitLoop m p b | None => [s] end
  end.
Definition split (p s : str) : list str := splitLoop (length s) p s.

(** [str(n)] *)
Fixpoint decDigits (fuel : nat) (n : Z) (acc : str) : str :=
  match fuel with
  | O => acc
  | S m => if n <? 10 then 48 + n :: acc else decDigits m (n / 10) (48 + n mod 10 :: acc)
  end.
Definition dec (n : Z) : str :=
  if n <? 0 then 45 :: decDigits (S (Z.to_nat (Z.log2 (- n)))) (- n) [] else decDigits (S (Z.to_nat (Z.log2 n))) n [].
