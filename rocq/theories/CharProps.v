(** * Model of UnicodeData/CharProps.py

    The tables of CharPropsData.py are a parameter, so that theorems about the code
    hold for all tables; [icu] are the shipped ones. *)
From Coq Require Import ZArith List Bool Lia.
From Coq.Floats Require Import SpecFloat.
From Verif Require Import Py Arr UTrie2 Data_CharProps.
Import ListNotations.
Open Scope Z_scope.

(** the module level tables (CharProps.py:13-17 and CharPropsData.py) *)
Record chardata := mkCharData {
  propsTrie : utrie2;
  propsVectorTrie : utrie2;
  vectors : arr;
  vectorColumns : Z;
  scriptExt : arr }.

(** CharProps.py:13-17; [UTrie2.__init__]'s initialValue is left to its default 0 *)
Definition icu : chardata := {|
  propsTrie := mkUTrie2 propsTrie_index propsTrie_index_length propsTrie_index_2_null_offset propsTrie_data_null_offset
    propsTrie_high_start propsTrie_high_value_index 0;
  propsVectorTrie := mkUTrie2 propsVectorsTrie_index propsVectorsTrie_index_length propsVectorsTrie_index_2_null_offset
    propsVectorsTrie_data_null_offset propsVectorsTrie_high_start propsVectorsTrie_high_value_index 0;
  vectors := propsVectors; vectorColumns := propsVectorsColumns; scriptExt := scriptExtensions |}.

(** GeneralCategories.py:10-78 *)
Definition GC_UNASSIGNED := 0.
Definition GC_UPPERCASE_LETTER := 1.
Definition GC_LOWERCASE_LETTER := 2.
Definition GC_TITLECASE_LETTER := 3.
Definition GC_MODIFIER_LETTER := 4.
Definition GC_OTHER_LETTER := 5.
Definition GC_NON_SPACING_MARK := 6.
Definition GC_ENCLOSING_MARK := 7.
Definition GC_COMBINING_SPACING_MARK := 8.
Definition GC_DECIMAL_DIGIT_NUMBER := 9.
Definition GC_LETTER_NUMBER := 10.
Definition GC_OTHER_NUMBER := 11.
Definition GC_SPACE_SEPARATOR := 12.
Definition GC_LINE_SEPARATOR := 13.
Definition GC_PARAGRAPH_SEPARATOR := 14.
Definition GC_CONTROL_CHAR := 15.
Definition GC_FORMAT_CHAR := 16.
Definition GC_PRIVATE_USE_CHAR := 17.
Definition GC_SURROGATE := 18.
Definition GC_DASH_PUNCTUATION := 19.
Definition GC_START_PUNCTUATION := 20.
Definition GC_END_PUNCTUATION := 21.
Definition GC_CONNECTOR_PUNCTUATION := 22.
Definition GC_OTHER_PUNCTUATION := 23.
Definition GC_MATH_SYMBOL := 24.
Definition GC_CURRENCY_SYMBOL := 25.
Definition GC_MODIFIER_SYMBOL := 26.
Definition GC_OTHER_SYMBOL := 27.
Definition GC_INITIAL_PUNCTUATION := 28.
Definition GC_FINAL_PUNCTUATION := 29.

(** GeneralCategories.py:91-173 *)
Definition bit (n : Z) : Z := Z.shiftl 1 n.
Definition GC_CN_MASK := bit GC_UNASSIGNED.
Definition GC_LU_MASK := bit GC_UPPERCASE_LETTER.
Definition GC_LL_MASK := bit GC_LOWERCASE_LETTER.
Definition GC_LT_MASK := bit GC_TITLECASE_LETTER.
Definition GC_LM_MASK := bit GC_MODIFIER_LETTER.
Definition GC_LO_MASK := bit GC_OTHER_LETTER.
Definition GC_MN_MASK := bit GC_NON_SPACING_MARK.
Definition GC_ME_MASK := bit GC_ENCLOSING_MARK.
Definition GC_MC_MASK := bit GC_COMBINING_SPACING_MARK.
Definition GC_ND_MASK := bit GC_DECIMAL_DIGIT_NUMBER.
Definition GC_NL_MASK := bit GC_LETTER_NUMBER.
Definition GC_NO_MASK := bit GC_OTHER_NUMBER.
Definition GC_ZS_MASK := bit GC_SPACE_SEPARATOR.
Definition GC_ZL_MASK := bit GC_LINE_SEPARATOR.
Definition GC_ZP_MASK := bit GC_PARAGRAPH_SEPARATOR.
Definition GC_CC_MASK := bit GC_CONTROL_CHAR.
Definition GC_CF_MASK := bit GC_FORMAT_CHAR.
Definition GC_CO_MASK := bit GC_PRIVATE_USE_CHAR.
Definition GC_CS_MASK := bit GC_SURROGATE.
Definition GC_PD_MASK := bit GC_DASH_PUNCTUATION.
Definition GC_PS_MASK := bit GC_START_PUNCTUATION.
Definition GC_PE_MASK := bit GC_END_PUNCTUATION.
Definition GC_PC_MASK := bit GC_CONNECTOR_PUNCTUATION.
Definition GC_PO_MASK := bit GC_OTHER_PUNCTUATION.
Definition GC_SM_MASK := bit GC_MATH_SYMBOL.
Definition GC_SC_MASK := bit GC_CURRENCY_SYMBOL.
Definition GC_SK_MASK := bit GC_MODIFIER_SYMBOL.
Definition GC_SO_MASK := bit GC_OTHER_SYMBOL.
Definition GC_PI_MASK := bit GC_INITIAL_PUNCTUATION.
Definition GC_PF_MASK := bit GC_FINAL_PUNCTUATION.
Definition ors (l : list Z) : Z := fold_left Z.lor l 0.
Definition GC_L_MASK := ors [GC_LU_MASK; GC_LL_MASK; GC_LT_MASK; GC_LM_MASK; GC_LO_MASK].
Definition GC_M_MASK := ors [GC_MN_MASK; GC_ME_MASK; GC_MC_MASK].
Definition GC_N_MASK := ors [GC_ND_MASK; GC_NL_MASK; GC_NO_MASK].
Definition GC_Z_MASK := ors [GC_ZS_MASK; GC_ZL_MASK; GC_ZP_MASK].
Definition GC_C_MASK := ors [GC_CN_MASK; GC_CC_MASK; GC_CF_MASK; GC_CO_MASK; GC_CS_MASK].
Definition GC_P_MASK := ors [GC_PD_MASK; GC_PS_MASK; GC_PE_MASK; GC_PC_MASK; GC_PO_MASK; GC_PI_MASK; GC_PF_MASK].

(** Characters.py:9-38 *)
Definition CH_TAB := 0x0009.
Definition CH_CR := 0x000d.
Definition CH_SPACE := 0x0020.
Definition CH_NL := 0x0085.
Definition CH_NBSP := 0x00a0.
Definition CH_FIGURESP := 0x2007.
Definition CH_NNBSP := 0x202f.

(** uprops_h.py:20-97 *)
Definition NUMERIC_TYPE_VALUE_SHIFT := 6.
Definition NTV_NONE := 0.
Definition NTV_DECIMAL_START := 1.
Definition NTV_DIGIT_START := 11.
Definition NTV_NUMERIC_START := 21.
Definition NTV_FRACTION_START := 0xb0.
Definition NTV_LARGE_START := 0x1e0.
Definition NTV_BASE60_START := 0x300.
Definition NTV_FRACTION20_START := NTV_BASE60_START + 36.
Definition NTV_FRACTION32_START := NTV_FRACTION20_START + 24.
Definition NTV_RESERVED_START := NTV_FRACTION32_START + 16.
Definition AGE_SHIFT := 24.
Definition SCRIPT_X_MASK := 0x00f000ff.
Definition SCRIPT_HIGH_MASK := 0x00300000.
Definition SCRIPT_HIGH_SHIFT := 12.
Definition SCRIPT_LOW_MASK := 0xff.
Definition SCRIPT_X_WITH_COMMON := 0x400000.
Definition SCRIPT_X_WITH_INHERITED := 0x800000.
Definition SCRIPT_X_WITH_OTHER := 0xc00000.
Definition EA_MASK := 0x000e0000.
Definition EA_SHIFT := 17.
Definition BLOCK_MASK := 0x0001ff00.
Definition BLOCK_SHIFT := 8.
Definition BINARY_1_TOP := 32.
Definition LB_MASK := 0x03f00000.
Definition LB_SHIFT := 20.
Definition SB_MASK := 0x000f8000.
Definition SB_SHIFT := 15.
Definition WB_MASK := 0x00007c00.
Definition WB_SHIFT := 10.
Definition GCB_MASK := 0x000003e0.
Definition GCB_SHIFT := 5.
Definition DT_MASK := 0x0000001f.
Definition WHITE_SPACE := 0.
Definition ALPHABETIC := 8.
Definition NONCHARACTER_CODE_POINT := 12.
(** uscript_h.py:7-9 *)
Definition USCRIPT_INVALID_CODE := -1.
Definition USCRIPT_COMMON := 0.
Definition USCRIPT_INHERITED := 1.

(** Python [c in range(a, b)] for an int [c] *)
Definition in_range (c a b : Z) : bool := (a <=? c) && (c <? b).

Section CharProps.
  Variable D : chardata.

  (** CharProps.py:19-20 *)
  Definition unicodePropertiesFromVecIndex (vecIndex column : Z) : res Z := aget (vectors D) (vecIndex + column).
  (** CharProps.py:22-27 *)
  Definition getUnicodeProperties (c column : Z) : res Z :=
    if column >? vectorColumns D then Ok 0
    else let* v := get (propsVectorTrie D) c in unicodePropertiesFromVecIndex v column.
  (** CharProps.py:29-30 *)
  Definition generalCategoryFromProps (props : Z) : Z := Z.land props 0x1F.
  (** CharProps.py:32-34 *)
  Definition getGeneralCategory (c : Z) : res Z :=
    let* props := get (propsTrie D) c in Ok (generalCategoryFromProps props).
  (** CharProps.py:36-37 *)
  Definition gcMask (gc : Z) : Z := Z.shiftl 1 gc.

  (** [getGeneralCategory(c) == k] *)
  Definition gc_is (k c : Z) : res bool := let* gc := getGeneralCategory c in Ok (gc =? k).
  (** [(gcMask(gc) & m) != 0] *)
  Definition gc_in (m c : Z) : res bool := let* gc := getGeneralCategory c in Ok (negb (Z.land (gcMask gc) m =? 0)).

  (** CharProps.py:39-49 *)
  Definition isLower := gc_is GC_LOWERCASE_LETTER.
  Definition isUpper := gc_is GC_UPPERCASE_LETTER.
  Definition isTitle := gc_is GC_TITLECASE_LETTER.
  Definition isDigit := gc_is GC_DECIMAL_DIGIT_NUMBER.
  (** CharProps.py:51-58 *)
  Definition isHexDigit (c : Z) : res bool :=
    if in_range c 0x41 (0x46 + 1) || in_range c 0x61 (0x66 + 1) then Ok true
    else if in_range c 0xff21 (0xff26 + 1) || in_range c 0xff41 (0xff46 + 1) then Ok true
    else isDigit c.
  (** CharProps.py:60-62 *)
  Definition isalpha := gc_in GC_L_MASK.
  (** CharProps.py:64-66 *)
  Definition isAlphabetic (c : Z) : res bool :=
    let* props := getUnicodeProperties c 1 in Ok (negb (Z.land props (bit ALPHABETIC) =? 0)).
  (** CharProps.py:68-70 *)
  Definition isalnum := gc_in (Z.lor GC_L_MASK GC_ND_MASK).
  (** CharProps.py:72-73 *)
  Definition isalnumPOSIX (c : Z) : res bool := let* a := isAlphabetic c in if a then Ok true else isDigit c.
  (** CharProps.py:75-76 *)
  Definition isDefined (c : Z) : res bool := let* gc := getGeneralCategory c in Ok (negb (gc =? GC_UNASSIGNED)).
  (** CharProps.py:78-80 *)
  Definition isbase := gc_in (ors [GC_L_MASK; GC_N_MASK; GC_MC_MASK; GC_ME_MASK]).
  (** CharProps.py:82-84 *)
  Definition iscntrl := gc_in (ors [GC_CC_MASK; GC_CF_MASK; GC_ZL_MASK; GC_ZP_MASK]).
  (** CharProps.py:86-87 *)
  Definition isISOControl (c : Z) : bool := (c <=? 0x001F) || in_range c 0x007F (0x009F + 1).
  (** CharProps.py:89-91 *)
  Definition isThatControlSpace (c : Z) : bool :=
    (c <=? 0x9f) && (((c >=? CH_TAB) && (c <=? CH_CR)) || ((c >=? 0x1c) && (c <=? 0x1f)) || (c =? CH_NL)).
  (** CharProps.py:93-95 *)
  Definition isThatASCIIControlSpace (c : Z) : bool := (c <=? 0x1f) && (c >=? CH_TAB) && ((c <=? CH_CR) || (c >=? 0x1c)).
  (** CharProps.py:97-99 *)
  Definition isspace (c : Z) : res bool := let* z := gc_in GC_Z_MASK c in Ok (z || isThatControlSpace c).
  (** CharProps.py:101-103 *)
  Definition isJavaSpaceChar := gc_in GC_Z_MASK.
  (** CharProps.py:105-110 *)
  Definition isWhiteSpace (c : Z) : res bool :=
    if (c =? CH_NBSP) || (c =? CH_FIGURESP) || (c =? CH_NNBSP) then Ok false
    else let* z := gc_in GC_Z_MASK c in Ok (z || isThatASCIIControlSpace c).
  (** CharProps.py:112-117 *)
  Definition isBlank (c : Z) : res bool :=
    if c <=? 0x009F then Ok ((c =? CH_TAB) || (c =? CH_SPACE)) else gc_is GC_SPACE_SEPARATOR c.
  (** CharProps.py:119-121 *)
  Definition isUWhiteSpace (c : Z) : res bool :=
    let* props := getUnicodeProperties c 1 in Ok (negb (Z.land props (bit WHITE_SPACE) =? 0)).
  (** [(gcMask(gc) & m) == 0] *)
  Definition gc_notin (m c : Z) : res bool := let* gc := getGeneralCategory c in Ok (Z.land (gcMask gc) m =? 0).
  (** CharProps.py:123-126 *)
  Definition isPrint := gc_notin GC_C_MASK.
  (** CharProps.py:137-140 *)
  Definition isGraphPOSIX := gc_notin (ors [GC_CC_MASK; GC_CS_MASK; GC_CN_MASK; GC_Z_MASK]).
  (** CharProps.py:128-130 *)
  Definition isPrintPOSIX (c : Z) : res bool := let* s := gc_is GC_SPACE_SEPARATOR c in if s then Ok true else isGraphPOSIX c.
  (** CharProps.py:132-135 *)
  Definition isgraph := gc_notin (ors [GC_CC_MASK; GC_CF_MASK; GC_CS_MASK; GC_CN_MASK; GC_Z_MASK]).
  (** CharProps.py:142-144 *)
  Definition ispunct := gc_in GC_P_MASK.
  (** CharProps.py:146-148 *)
  Definition isIDStart := gc_in (Z.lor GC_L_MASK GC_NL_MASK).
  (** CharProps.py:154-159; the value computed for c < 0x9F is dropped: there is no [return] *)
  Definition isIDIgnorable (c : Z) : res bool := gc_is GC_FORMAT_CHAR c.
  (** CharProps.py:150-152 *)
  Definition isIDPart (c : Z) : res bool :=
    let* b := gc_in (ors [GC_ND_MASK; GC_NL_MASK; GC_L_MASK; GC_PC_MASK; GC_MC_MASK; GC_MN_MASK]) c in
    if b then Ok true else isIDIgnorable c.
  (** CharProps.py:161-163 *)
  Definition isJavaIDStart := gc_in (ors [GC_L_MASK; GC_SC_MASK; GC_PC_MASK]).
  (** CharProps.py:165-167 *)
  Definition isJavaIDPart (c : Z) : res bool :=
    let* b := gc_in (ors [GC_ND_MASK; GC_NL_MASK; GC_L_MASK; GC_SC_MASK; GC_PC_MASK; GC_MC_MASK; GC_MN_MASK]) c in
    if b then Ok true else isIDIgnorable c.

  (** CharProps.py:183-185 *)
  Definition getNumericTypeValue (c : Z) : res Z :=
    let* props := get (propsTrie D) c in Ok (Z.shiftr props NUMERIC_TYPE_VALUE_SHIFT).
  (** CharProps.py:169-171 *)
  Definition digitValue (c : Z) : res Z :=
    let* n := getNumericTypeValue c in
    let value := n - NTV_DECIMAL_START in Ok (if value <=? 9 then value else -1).
  (** CharProps.py:173-174 *)
  Definition numericTypeFromProps (props : Z) : Z := Z.land props 0x1F.
  (** CharProps.py:176-178 *)
  Definition getNumericType (c : Z) : res Z := let* props := get (propsTrie D) c in Ok (numericTypeFromProps props).
  (** CharProps.py:180-181 *)
  Definition numericTypeValueFromProps (props : Z) : Z := Z.shiftr props NUMERIC_TYPE_VALUE_SHIFT.

  (** a Python number: int, or float as an IEEE 754 binary64 *)
  Inductive pynum := PyInt (z : Z) | PyFloat (f : spec_float).
  (** [float(z)] *)
  Definition float_of_Z (z : Z) : spec_float := binary_normalize 53 1024 z 0 false.
  Definition as_float (x : pynum) : spec_float := match x with PyInt z => float_of_Z z | PyFloat f => f end.
  (** [x *= float] with the float a whole number *)
  Definition times_float (x : pynum) (k : Z) : pynum := PyFloat (SFmul 53 1024 (as_float x) (float_of_Z k)).
  (** [a / b] for ints that floats hold exactly *)
  Definition true_div (a b : Z) : pynum := PyFloat (SFdiv 53 1024 (float_of_Z a) (float_of_Z b)).

  (** CharProps.py:217-220 [while exp >= 4]; [exp] is at most 33 here *)
  Fixpoint scale (fuel : nat) (numValue : pynum) (exp : Z) : pynum * Z :=
    match fuel with
    | O => (numValue, exp)
    | S m => if exp >=? 4 then scale m (times_float numValue 10000) (exp - 4) else (numValue, exp)
    end.

  (** CharProps.py:187-263 *)
  Definition numericValueFromProps (props : Z) : option pynum :=
    let ntv := numericTypeValueFromProps props in
    if ntv =? NTV_NONE then None
    else if ntv <? NTV_DIGIT_START then Some (PyInt (ntv - NTV_DECIMAL_START))
    else if ntv <? NTV_NUMERIC_START then Some (PyInt (ntv - NTV_DIGIT_START))
    else if ntv <? NTV_FRACTION_START then Some (PyInt (ntv - NTV_NUMERIC_START))
    else if ntv <? NTV_LARGE_START then
      let numerator := Z.shiftr ntv 4 - 12 in
      let denominator := Z.land ntv 0xf + 1 in
      Some (true_div numerator denominator)
    else if ntv <? NTV_BASE60_START then
      let mant := Z.shiftr ntv 5 - 14 in
      let exp := Z.land ntv 0x1f + 2 in
      let (numValue, exp) := scale 9 (PyInt mant) exp in
      Some (if exp =? 3 then times_float numValue 1000
            else if exp =? 2 then times_float numValue 100
            else if exp =? 1 then times_float numValue 10
            else numValue)
    else if ntv <? NTV_FRACTION20_START then
      let numValue := Z.shiftr ntv 2 - 0xbf in
      let exp := Z.land ntv 3 + 1 in
      Some (PyInt (if exp =? 4 then numValue * (60*60*60*60)
                   else if exp =? 3 then numValue * (60*60*60)
                   else if exp =? 2 then numValue * (60*60)
                   else if exp =? 1 then numValue * 60
                   else numValue))
    else if ntv <? NTV_FRACTION32_START then
      let frac20 := ntv - NTV_FRACTION20_START in
      let numerator := 2 * Z.land frac20 3 + 1 in
      let denominator := Z.shiftl 20 (Z.shiftr frac20 2) in
      Some (true_div numerator denominator)
    else if ntv <? NTV_RESERVED_START then
      let frac32 := ntv - NTV_FRACTION32_START in
      let numerator := 2 * Z.land frac32 3 + 1 in
      let denominator := Z.shiftl 32 (Z.shiftr frac32 2) in
      Some (true_div numerator denominator)
    else None.
  (** CharProps.py:265-267 *)
  Definition getNumericValue (c : Z) : res (option pynum) :=
    let* props := get (propsTrie D) c in Ok (numericValueFromProps props).

  (** CharProps.py:269-271 *)
  Definition ageFromProps (props : Z) : list Z :=
    let age := Z.shiftr props AGE_SHIFT in [Z.shiftr age 4; Z.land age 0xF; 0; 0].
  (** CharProps.py:273-275 *)
  Definition getAge (c : Z) : res (list Z) := let* props := getUnicodeProperties c 0 in Ok (ageFromProps props).
  (** CharProps.py:277-280 *)
  Definition mergeScriptCodeOrIndex (scriptX : Z) : Z :=
    Z.lor (Z.shiftr (Z.land scriptX SCRIPT_HIGH_MASK) SCRIPT_HIGH_SHIFT) (Z.land scriptX SCRIPT_LOW_MASK).
  (** CharProps.py:282-296 *)
  Definition scriptFromVecIndex (vecIndex : Z) : res Z :=
    let* props := unicodePropertiesFromVecIndex vecIndex 0 in
    let scriptX := Z.land props SCRIPT_X_MASK in
    let codeOrIndex := mergeScriptCodeOrIndex scriptX in
    if scriptX <? SCRIPT_X_WITH_COMMON then Ok codeOrIndex
    else if scriptX <? SCRIPT_X_WITH_INHERITED then Ok USCRIPT_COMMON
    else if scriptX <? SCRIPT_X_WITH_OTHER then Ok USCRIPT_INHERITED
    else aget (scriptExt D) codeOrIndex.
  (** CharProps.py:298-304 *)
  Definition getScript (c : Z) : res Z :=
    if c >? 0x10FFFF then Ok USCRIPT_INVALID_CODE
    else let* v := get (propsVectorTrie D) c in scriptFromVecIndex v.

  (** [(props & mask) >> shift] of a column *)
  Definition field (column mask shift vecIndex : Z) : res Z :=
    let* props := unicodePropertiesFromVecIndex vecIndex column in Ok (Z.shiftr (Z.land props mask) shift).
  Definition of_char {A} (f : Z -> res A) (c : Z) : res A := let* v := get (propsVectorTrie D) c in f v.
  (** CharProps.py:306-312 *)
  Definition blockFromVecIndex := field 0 BLOCK_MASK BLOCK_SHIFT.
  Definition getBlock := of_char blockFromVecIndex.
  (** CharProps.py:314-321 *)
  Definition eastAsianWidthFromVecIndex := field 0 EA_MASK EA_SHIFT.
  Definition getEastAsianWidth := of_char eastAsianWidthFromVecIndex.
  (** CharProps.py:323-329 *)
  Definition lineBreakFromVecIndex := field 2 LB_MASK LB_SHIFT.
  Definition getLineBreak := of_char lineBreakFromVecIndex.
  (** CharProps.py:331-337 *)
  Definition sentenceBreakFromVecIndex := field 2 SB_MASK SB_SHIFT.
  Definition getSentenceBreak := of_char sentenceBreakFromVecIndex.
  (** CharProps.py:339-345 *)
  Definition wordBreakFromVecIndex := field 2 WB_MASK WB_SHIFT.
  Definition getWordBreak := of_char wordBreakFromVecIndex.
  (** CharProps.py:347-353 *)
  Definition graphemeClusterBreakFromVecIndex := field 2 GCB_MASK GCB_SHIFT.
  Definition getGraphemeClusterBreak := of_char graphemeClusterBreakFromVecIndex.
  (** CharProps.py:355-361 *)
  Definition decompTypeFromVecIndex (vecIndex : Z) : res Z :=
    let* props := unicodePropertiesFromVecIndex vecIndex 2 in Ok (Z.land props DT_MASK).
  Definition getDecompType := of_char decompTypeFromVecIndex.

  (** [1 << n]; ValueError for a negative count *)
  Definition one_shl (n : Z) : res Z := if n <? 0 then Err ValueError else Ok (Z.shiftl 1 n).
  (** CharProps.py:363-365 *)
  Definition binaryPropFromVecIndex (vecIndex propShift column : Z) : res bool :=
    let* props := unicodePropertiesFromVecIndex vecIndex column in
    let* m := one_shl propShift in Ok (negb (Z.land props m =? 0)).
  (** CharProps.py:367-372 *)
  Definition getBinaryProp (c propShift column : Z) : res bool :=
    if propShift >=? BINARY_1_TOP then Ok false
    else of_char (fun v => binaryPropFromVecIndex v propShift column) c.
  (** CharProps.py:374-390 *)
  Definition isExtendedPictograph (c : Z) := getBinaryProp c 26 2.
  Definition isEmojiComponent (c : Z) := getBinaryProp c 27 2.
  Definition isEmoji (c : Z) := getBinaryProp c 28 2.
  Definition isEmojiPresentation (c : Z) := getBinaryProp c 29 2.
  Definition isEmojiModifier (c : Z) := getBinaryProp c 30 2.
  Definition isEmojiModifierBase (c : Z) := getBinaryProp c 31 2.
End CharProps.
