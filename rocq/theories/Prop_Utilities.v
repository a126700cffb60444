(** * Properties C20 - C23, C54: Utilities. *)
From Coq Require Import ZArith List Bool Lia.
From Verif Require Import Py Utilities UtilitiesFacts HexFacts.
Import ListNotations.
Open Scope Z_scope.

(** ** C20 *)
Theorem C20_surrogates_of_char : forall ch, 0x10000 <= ch <= 0x10FFFF ->
  exists l t, surrogatesFromChar ch = (l, t) /\ isLead l = true /\ isTrail t = true /\
              charFromSurrogates l t = ch.
Proof. exact surrogates_roundtrip. Qed.
Print Assumptions C20_surrogates_of_char.
Theorem C20_char_of_surrogates : forall l t, 0xD800 <= l <= 0xDBFF -> 0xDC00 <= t <= 0xDFFF ->
  0x10000 <= charFromSurrogates l t <= 0x10FFFF /\
  surrogatesFromChar (charFromSurrogates l t) = (l, t).
Proof. exact surrogates_roundtrip2. Qed.
Print Assumptions C20_char_of_surrogates.
Example C20_case : surrogatesFromChar 0x1F600 = (0xD83D, 0xDE00) /\ charFromSurrogates 0xD83D 0xDE00 = 0x1F600.
Proof. vm_compute. auto. Qed.

(** ** C21 *)
Theorem C21_surrogate_classes : forall c, 0 <= c < 2 ^ 32 ->
  (isSurrogate c = true <-> 0xD800 <= c <= 0xDFFF) /\
  (isLead c = true <-> 0xD800 <= c <= 0xDBFF) /\
  (isTrail c = true <-> 0xDC00 <= c <= 0xDFFF) /\
  (isSurrogate c = true -> isSurrogateLead c = isLead c /\ isSurrogateTrail c = isTrail c).
Proof.
  exact (fun c H => conj (isSurrogate_spec c H) (conj (isLead_spec c H) (conj (isTrail_spec c H)
    (fun K => isSurrogateLead_spec c K H)))).
Qed.
Print Assumptions C21_surrogate_classes.
Theorem C21_noncharacters : forall c, isUnicodeNoncharacter c = true <->
  0xFDD0 <= c <= 0xFDEF \/
  exists plane, 0 <= plane <= 16 /\ (c = plane * 0x10000 + 0xFFFE \/ c = plane * 0x10000 + 0xFFFF).
Proof. exact nonchar_spec. Qed.
Print Assumptions C21_noncharacters.
(** The bound 2^32 is needed: the masks ignore higher bits. *)
Example C21_bound_needed : isSurrogate (2 ^ 32 + 0xD800) = true.
Proof. reflexivity. Qed.
Example C21_case : isUnicodeNoncharacter 0x3FFFE = true /\ isUnicodeNoncharacter 0xFDF0 = false /\ isLead 0xDBFF = true.
Proof. vm_compute. auto. Qed.

(** ** C22: [signed f x] is the two's complement value of the f-bit field x. *)
Theorem C22_arithmeticShift : forall w f v, 1 <= f <= w -> 0 <= v < 2 ^ w ->
  arithmeticShift v w f = Ok (signed f (v / 2 ^ (w - f))).
Proof. exact arithmeticShift_spec. Qed.
Print Assumptions C22_arithmeticShift.
Theorem C22_signed_range : forall f x, 1 <= f -> 0 <= x < 2 ^ f -> - 2 ^ (f - 1) <= signed f x < 2 ^ (f - 1).
Proof. exact signed_range. Qed.
Print Assumptions C22_signed_range.
(** recovers [d] from every word whose top field encodes [d] *)
Theorem C22_decodes : forall w f d low, 1 <= f <= w -> - 2 ^ (f - 1) <= d < 2 ^ (f - 1) ->
  0 <= low < 2 ^ (w - f) -> arithmeticShift ((d mod 2 ^ f) * 2 ^ (w - f) + low) w f = Ok d.
Proof. exact arithmeticShift_decodes. Qed.
Print Assumptions C22_decodes.
Example C22_case : arithmeticShift 0xF05A 16 9 = Ok (-32) /\ arithmeticShift 0x105A 16 9 = Ok 32.
Proof. vm_compute. auto. Qed.

(** ** C23 *)
Theorem C23_highBit : forall v, (0 < v < 2 ^ 64 -> highBit v = Some (Z.log2 v)) /\ highBit 0 = None.
Proof. exact (fun v => conj (highBit_spec v) eq_refl). Qed.
Print Assumptions C23_highBit.
Example C23_case : highBit 0x80000000000 = Some 43 /\ highBit 1 = Some 0.
Proof. vm_compute. auto. Qed.
(** The documented bound of 64 bits is needed. *)
Example C23_bound_needed : highBit (2 ^ 64) = Some 63.
Proof. reflexivity. Qed.

(** ** C54: the printed list of codes can be read back; [readCodes] splits at
    ", " and reads hexadecimal numbers. *)
Theorem C54_listOfCodes : forall codes, Forall (fun c => 0 <= c) codes ->
  readCodes (listOfCodes codes) = codes.
Proof. exact listOfCodes_reads. Qed.
Print Assumptions C54_listOfCodes.
Theorem C54_width : forall w n, 0 <= n ->
  readHex (formatHex w n) = n /\ (w <= length (formatHex w n))%nat /\ formatHex w n <> [] /\
  Forall isHexChar (formatHex w n).
Proof. exact formatHex_spec. Qed.
Print Assumptions C54_width.
(** "0041, 1F600" *)
Example C54_case : listOfCodes [0x41; 0x1F600] = [48; 48; 52; 49; 44; 32; 49; 70; 54; 48; 48].
Proof. vm_compute. reflexivity. Qed.
