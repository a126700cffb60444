(** * Model of UnicodeData/Utilities.py

    Python ints are unbounded: [Z]; [&], [<<], [>>] are [Z.land], [Z.shiftl],
    [Z.shiftr]. *)
From Coq Require Import ZArith List Bool Lia.
From Verif Require Import Py.
Import ListNotations.
Open Scope Z_scope.

(** Utilities.py:16-18 *)
Definition isUnicodeNoncharacter (code : Z) : bool :=
  (code >=? 0xfdd0) && ((code <=? 0xfdef) || (Z.land code 0xfffe =? 0xfffe)) && (code <=? 0x10ffff).

(** Utilities.py:20-28 *)
Definition firstLead : Z := 0xD800.
Definition firstTrail : Z := 0xDC00.
Definition firstNonBMP : Z := 0x10000.
Definition leadShift : Z := 10.
Definition surrogateMask : Z := 0xFFFFF800.
Definition leadTrailMask : Z := 0xFFFFFC00.
Definition trailMask : Z := 0xFFFFFFFF - leadTrailMask.
Definition surrogateOffset : Z := Z.shiftl firstLead leadShift + firstTrail - firstNonBMP.
Definition leadOffset : Z := firstLead - Z.shiftr firstNonBMP leadShift.

(** Utilities.py:30-31 *)
Definition isSurrogate (code : Z) : bool := Z.land code surrogateMask =? firstLead.
(** Utilities.py:33-34 *)
Definition isSurrogateLead (code : Z) : bool := Z.land code 0x400 =? 0.
(** Utilities.py:36-37 *)
Definition isSurrogateTrail (code : Z) : bool := negb (Z.land code 0x400 =? 0).
(** Utilities.py:39-40 *)
Definition isLead (code : Z) : bool := Z.land code leadTrailMask =? firstLead.
(** Utilities.py:42-43 *)
Definition isTrail (code : Z) : bool := Z.land code leadTrailMask =? firstTrail.
(** Utilities.py:45-46 *)
Definition charFromSurrogates (lead trail : Z) : Z :=
  Z.shiftl lead leadShift + trail - surrogateOffset.
(** Utilities.py:48-51 *)
Definition surrogatesFromChar (ch : Z) : Z * Z :=
  (Z.shiftr ch leadShift + leadOffset, Z.land ch trailMask + firstTrail).

(** Utilities.py:53-66.  A negative shift count is a ValueError in Python. *)
Definition arithmeticShift (value bitsInWord bitsInField : Z) : res Z :=
  if (bitsInWord - 1 <? 0) || (bitsInWord - bitsInField <? 0) then Err ValueError
  else
    let signBit := Z.shiftl 1 (bitsInWord - 1) in
    let result := Z.shiftr value (bitsInWord - bitsInField) in
    if negb (Z.land value signBit =? 0)
    then (if bitsInField <? 0 then Err ValueError else Ok (result - Z.shiftl 1 bitsInField))
    else Ok result.

(** Utilities.py:79-102 one step of the binary search:
    [if value >= 1 << k: value >>= k; bit += k] *)
Definition highBit_step (vb : Z * Z) (k : Z) : Z * Z :=
  let (value, bit) := vb in
  if value >=? Z.shiftl 1 k then (Z.shiftr value k, bit + k) else (value, bit).

(** Utilities.py:68-104 *)
Definition highBit (value : Z) : option Z :=
  if value =? 0 then None
  else Some (snd (fold_left highBit_step [32; 16; 8; 4; 2; 1] (value, 0))).

(** [f"{n:0wX}"] for a non-negative [n]: upper-case hexadecimal digits (as
    numbers 0..15, most significant first), padded with zeros to width [w]. *)
Fixpoint hexDigits (fuel : nat) (n : Z) (acc : list Z) : list Z :=
  match fuel with
  | O => acc
  | S k => if n <? 16 then n :: acc else hexDigits k (n / 16) (n mod 16 :: acc)
  end.
Definition padTo (w : nat) (ds : list Z) : list Z := repeat 0 (w - length ds) ++ ds.
(** character code of a hexadecimal digit *)
Definition hexChar (d : Z) : Z := if d <? 10 then 48 + d else 55 + d.
Definition formatHex (w : nat) (n : Z) : list Z :=
  map hexChar (padTo w (hexDigits (S (Z.to_nat (Z.log2 n))) n [])).

(** [sep.join(parts)] on strings as lists of character codes *)
Fixpoint join (sep : list Z) (parts : list (list Z)) : list Z :=
  match parts with
  | [] => []
  | [p] => p
  | p :: r => p ++ sep ++ join sep r
  end.

(** Utilities.py:114-116 on non-negative codes; ", " is [44; 32] *)
Definition listOfCodes (codes : list Z) : list Z :=
  join [44; 32] (map (formatHex 4) codes).
