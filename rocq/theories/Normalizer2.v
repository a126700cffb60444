(** * Model of UnicodeData/Normalizer2.py

    An object is a record; [nfc] is the one made from Norm2NFCData.py.  The string
    returned by a method is the list of its code points. *)
From Coq Require Import ZArith List Bool Lia.
From Verif Require Import Py Arr Utilities Bytes CPTrie Data_NFC.
Import ListNotations.
Open Scope Z_scope.

(** Normalizer2.py:18-97 *)
Definition MIN_NORMAL_MAYBE_YES := 0xfc00.
Definition JAMO_L := 2.
Definition JAMO_VT := 0xfe00.
Definition INERT := 1.
Definition HAS_COMP_BOUNDARY_AFTER := 1.
Definition OFFSET_SHIFT := 1.
Definition DELTA_SHIFT := 3.
Definition MAX_DELTA := 0x40.
Definition IX_MIN_DECOMP_NO_CP := 8.
Definition IX_MIN_COMP_NO_MAYBE_CP := 9.
Definition IX_MIN_YES_NO := 10.
Definition IX_MIN_NO_NO := 11.
Definition IX_LIMIT_NO_NO := 12.
Definition IX_MIN_MAYBE_YES := 13.
Definition IX_MIN_YES_NO_MAPPINGS_ONLY := 14.
Definition IX_MIN_NO_NO_COMP_BOUNDARY_BEFORE := 15.
Definition IX_MIN_NO_NO_COMP_NO_MAYBE_CC := 16.
Definition IX_MIN_NO_NO_EMPTY := 17.
Definition IX_MIN_LCCC_CP := 18.
Definition MAPPING_HAS_RAW_MAPPING := 0x40.
Definition MAPPING_LENGTH_MASK := 0x1f.
Definition JAMO_L_BASE := 0x1100.
Definition JAMO_V_BASE := 0x1161.
Definition JAMO_T_BASE := 0x11a7.
Definition HANGUL_BASE := 0xac00.
Definition JAMO_V_COUNT := 21.
Definition JAMO_T_COUNT := 28.

(** The fields read by the methods below. *)
Record norm2 := mkNorm2 { n_trie : cptrie; minDecompNoCP : Z; minYesNo : Z; minYesNoMappingsOnly : Z; limitNoNo : Z; minMaybeYes : Z;
  centerNoNoDelta : Z; maybeYesCompositions : arr; extraData : arr }.

(** [a[:k]] and [a[k:]] *)
Definition arr_to (a : arr) (k : Z) : arr := mkArr (py_bound (alen a) k) (anth a).
Definition arr_from (a : arr) (k : Z) : arr := let b := py_bound (alen a) k in mkArr (alen a - b) (fun i => anth a (b + i)).

(** Normalizer2.py:100-120 [__init__]; the fields minCompNoMaybeCP, minLcccCP, minNoNo,
    minNoNoCompBoundaryBefore, minNoNoCompNoMaybeCC and minNoNoEmpty are read from the
    indexes (which can raise) but used by no method *)
Definition newNormalizer2 (trie : cptrie) (indexes extra : arr) : res norm2 :=
  let* a := aget indexes IX_MIN_DECOMP_NO_CP in
  let* _ := aget indexes IX_MIN_COMP_NO_MAYBE_CP in
  let* _ := aget indexes IX_MIN_LCCC_CP in
  let* b := aget indexes IX_MIN_YES_NO in
  let* c := aget indexes IX_MIN_YES_NO_MAPPINGS_ONLY in
  let* _ := aget indexes IX_MIN_NO_NO in
  let* _ := aget indexes IX_MIN_NO_NO_COMP_BOUNDARY_BEFORE in
  let* _ := aget indexes IX_MIN_NO_NO_COMP_NO_MAYBE_CC in
  let* _ := aget indexes IX_MIN_NO_NO_EMPTY in
  let* d := aget indexes IX_LIMIT_NO_NO in
  let* e := aget indexes IX_MIN_MAYBE_YES in
  if negb (Z.land e 7 =? 0) then Err AssertionError
  else
    let extraDataStart := Z.shiftr (MIN_NORMAL_MAYBE_YES - e) OFFSET_SHIFT in
    Ok (mkNorm2 trie a b c d e (Z.shiftr e DELTA_SHIFT - MAX_DELTA - 1) (arr_to extra extraDataStart) (arr_from extra extraDataStart)).

(** Normalizer2.py:122-127 *)
Definition nfc_trie : cptrie := mkCPTrie norm2_nfc_data_trieIndex norm2_nfc_data_trieData norm2_nfc_data_type norm2_nfc_data_valueWidth
  norm2_nfc_data_index3NullOffset norm2_nfc_data_dataNullOffset norm2_nfc_data_highStart norm2_nfc_data_shifted12HighStart.
Definition createFromHardCodedData : res norm2 := newNormalizer2 nfc_trie norm2_nfc_data_indexes norm2_nfc_data_extraData.

Section Methods.
  Variable N : norm2.

  (** Normalizer2.py:159-160 *)
  Definition getRawNorm16 (c : Z) : res Z := cpget (n_trie N) c.
  (** Normalizer2.py:156-157 *)
  Definition getNorm16 (c : Z) : res Z := if isLead c then Ok INERT else cpget (n_trie N) c.
  (** Normalizer2.py:162-163 *)
  Definition isMaybeOrNonZeroCC (norm16 : Z) : bool := norm16 >=? minMaybeYes N.
  (** Normalizer2.py:165-166 *)
  Definition isDecompNoAlgorithmic (norm16 : Z) : bool := norm16 >=? limitNoNo N.
  (** Normalizer2.py:168-169 *)
  Definition isDecompYes (norm16 : Z) : bool := (norm16 <? minYesNo N) || (minMaybeYes N <=? norm16).
  (** Normalizer2.py:171-178 *)
  Definition isInert (norm16 : Z) : bool := norm16 =? INERT.
  Definition isJamoL (norm16 : Z) : bool := norm16 =? JAMO_L.
  Definition isJamoVT (norm16 : Z) : bool := norm16 =? JAMO_VT.
  (** Normalizer2.py:180-181 *)
  Definition hangulLVT : Z := Z.lor (minYesNoMappingsOnly N) HAS_COMP_BOUNDARY_AFTER.
  (** Normalizer2.py:183-184 *)
  Definition isHangulLV (norm16 : Z) : bool := norm16 =? minYesNo N.
  (** Normalizer2.py:186-187 *)
  Definition isHangulLVT (norm16 : Z) : bool := norm16 =? hangulLVT.

  (** Normalizer2.py:189-201 *)
  Definition hangulDecomposition (c : Z) : res (list Z) :=
    let c := c - HANGUL_BASE in
    let c2 := c mod JAMO_T_COUNT in
    let c := c / JAMO_T_COUNT in
    let* l := py_chr (JAMO_L_BASE + c / JAMO_V_COUNT) in
    let* v := py_chr (JAMO_V_BASE + c mod JAMO_V_COUNT) in
    if negb (c2 =? 0) then let* t := py_chr (JAMO_T_BASE + c2) in Ok (l ++ v ++ t) else Ok (l ++ v).

  (** Normalizer2.py:203-217 *)
  Definition rawHangulDecomposition (c : Z) : res (list Z) :=
    let orig := c in
    let c := c - HANGUL_BASE in
    let c2 := c mod JAMO_T_COUNT in
    if c2 =? 0 then
      let c := c / JAMO_T_COUNT in
      let* l := py_chr (JAMO_L_BASE + c / JAMO_V_COUNT) in
      let* v := py_chr (JAMO_V_BASE + c mod JAMO_V_COUNT) in Ok (l ++ v)
    else
      let* lv := py_chr (orig - c2) in
      let* t := py_chr (JAMO_T_BASE + c2) in Ok (lv ++ t).

  (** Normalizer2.py:219-220 *)
  Definition mapAlgorithmic (c norm16 : Z) : Z := c + Z.shiftr norm16 DELTA_SHIFT - centerNoNoDelta N.
  (** Normalizer2.py:222-223 *)
  Definition getMappingIndex (norm16 : Z) : Z := Z.shiftr norm16 OFFSET_SHIFT.

  (** Normalizer2.py:228-239: the loop, [n] units left, reading from [i] on *)
  Fixpoint stringLoop (n : nat) (i lead : Z) : res (list Z) :=
    match n with
    | O => Ok []
    | S m =>
      let* ch := aget (extraData N) i in
      if negb (lead =? 0) then
        let* s := py_chr (charFromSurrogates lead ch) in let* r := stringLoop m (i + 1) 0 in Ok (s ++ r)
      else if isLead ch then stringLoop m (i + 1) ch
      else let* s := py_chr ch in let* r := stringLoop m (i + 1) 0 in Ok (s ++ r)
    end.
  (** Normalizer2.py:225-241 *)
  Definition stringFromData (index length : Z) : res (list Z) := stringLoop (Z.to_nat length) index 0.

  (** Normalizer2.py:265-271 *)
  Definition mappingOf (norm16 : Z) : res (option (list Z)) :=
    let ix := getMappingIndex norm16 in
    let* first := aget (extraData N) ix in
    let length := Z.land first MAPPING_LENGTH_MASK in
    let* s := stringFromData (ix + 1) length in Ok (Some s).

  (** Normalizer2.py:244-271 *)
  Definition getDecomposition (c : Z) : res (option (list Z)) :=
    let* norm16 := getNorm16 c in
    if (c <? minDecompNoCP N) || isMaybeOrNonZeroCC norm16 then Ok None
    else
      let* (c, norm16, decomposition) :=
        (if isDecompNoAlgorithmic norm16 then
           let c := mapAlgorithmic c norm16 in
           let* s := py_chr c in
           let* norm16 := getRawNorm16 c in Ok (c, norm16, s)
         else Ok (c, norm16, [])) in
      if norm16 <? minYesNo N then Ok (match decomposition with [] => None | _ => Some decomposition end)
      else if isHangulLV norm16 || isHangulLVT norm16 then let* s := hangulDecomposition c in Ok (Some s)
      else mappingOf norm16.

  (** Normalizer2.py:273-314 *)
  Definition getRawDecomposition (c : Z) : res (option (list Z)) :=
    let* norm16 := getNorm16 c in
    if (c <? minDecompNoCP N) || isDecompYes norm16 then Ok None
    else if isHangulLV norm16 || isHangulLVT norm16 then let* s := rawHangulDecomposition c in Ok (Some s)
    else if isDecompNoAlgorithmic norm16 then let* s := py_chr (mapAlgorithmic c norm16) in Ok (Some s)
    else
      let ix := getMappingIndex norm16 in
      let* firstUnit := aget (extraData N) ix in
      let length := Z.land firstUnit MAPPING_LENGTH_MASK in
      let* (decomposition, ix, length) :=
        (if negb (Z.land firstUnit MAPPING_HAS_RAW_MAPPING =? 0) then
           let rawMappingIndex := ix - Z.land (Z.shiftr firstUnit 7) 1 - 1 in
           let* rm0 := aget (extraData N) rawMappingIndex in
           if rm0 <=? MAPPING_LENGTH_MASK then Ok ([], rawMappingIndex - rm0, rm0)
           else let* s := py_chr rm0 in Ok (s, ix + 3, length - 2)
         else Ok ([], ix + 1, length)) in
      match decomposition with
      | [] => if length =? 0 then Ok None else let* s := stringFromData ix length in Ok (Some s)
      | _ => let* s := stringFromData ix length in Ok (Some (decomposition ++ s))
      end.
End Methods.
