(** * Model of tests/test_exhaustive.py: every character of the UCD file against the library

    Not modelled: the time that is printed, and the texts of the assertions. *)
From Coq Require Import ZArith List Bool Lia String.
From Verif Require Import Py PyStr Dict CharProps CaseProps BidiProps CPTrie Normalizer2 Normalizer2File CharNames UCD UCDIndex PyModule Data_Modules ModuleFacts.
Import ListNotations.
Open Scope string_scope.
Open Scope list_scope.
Open Scope Z_scope.
Local Notation length := List.length.
Local Notation concat := List.concat.

(** ** The characters

    tests/UnicodeCharacterData.py:90-97 as in UCDIndex.v, but with what is in the class variable
    [characterData] when an element cannot be read. *)
Fixpoint loadGroup (d : characters) (group : element) (chars : list element) : res unit * characters :=
  match chars with
  | [] => (Ok tt, d)
  | char :: rest =>
      match dict_find char (lit "cp") with
      | None => loadGroup d group rest
      | Some _ => match newCharacterData char group with Ok data => loadGroup (zd_set d (codePoint data) data) group rest | Err e => (Err e, d) end
      end
  end.
Fixpoint loadGroups (d : characters) (groups : list (element * list element)) : res unit * characters :=
  match groups with
  | [] => (Ok tt, d)
  | (group, chars) :: rest => match loadGroup d group chars with (Ok _, d') => loadGroups d' rest | (Err e, d') => (Err e, d') end
  end.
(** tests/UnicodeCharacterData.py:67-70, 102-103: the constructor *)
Definition loadCharacterData (d : characters) (groups : list (element * list element)) : res unit * characters :=
  if zlen d >? 0 then (Ok tt, d) else loadGroups d groups.

(** ** The comparisons *)
(** test_exhaustive.py:23-24 *)
Definition doTest (same : bool) : res unit := if same then Ok tt else Err AssertionError.
Definition optStr_eqb (a b : option str) : bool := match a, b with Some x, Some y => str_eqb x y | None, None => true | _, _ => false end.
(** test_exhaustive.py:26-59 *)
Definition binaryTestList : list (string * string) := [
  ("UPROPS_WHITE_SPACE", "whitespace"); ("UPROPS_DASH", "dash"); ("UPROPS_HYPHEN", "hyphen"); ("UPROPS_QUOTATION_MARK", "quotationMark");
  ("UPROPS_TERMINAL_PUNCTUATION", "terminalPunctuation"); ("UPROPS_MATH", "math"); ("UPROPS_HEX_DIGIT", "hexDigit"); ("UPROPS_ASCII_HEX_DIGIT", "asciiHexDigit");
  ("UPROPS_ALPHABETIC", "alphabetic"); ("UPROPS_IDEOGRAPHIC", "ideographic"); ("UPROPS_DIACRITIC", "diacritic"); ("UPROPS_EXTENDER", "extender");
  ("UPROPS_NONCHARACTER_CODE_POINT", "nonCharacterCodePoint"); ("UPROPS_GRAPHEME_EXTEND", "graphemeExtended"); ("UPROPS_GRAPHEME_LINK", "graphemeLink");
  ("UPROPS_IDS_BINARY_OPERATOR", "idsBinaryOperator"); ("UPROPS_IDS_TRINARY_OPERATOR", "idsTrinaryOperator"); ("UPROPS_RADICAL", "radical");
  ("UPROPS_UNIFIED_IDEOGRAPH", "unifiedIdeographic"); ("UPROPS_DEFAULT_IGNORABLE_CODE_POINT", "defaultIgnorable"); ("UPROPS_DEPRECATED", "deprecated");
  ("UPROPS_LOGICAL_ORDER_EXCEPTION", "logicalOrderException"); ("UPROPS_XID_START", "xIDStart"); ("UPROPS_XID_CONTINUE", "xIDContinue"); ("UPROPS_ID_START", "idStart");
  ("UPROPS_ID_CONTINUE", "idContinue"); ("UPROPS_GRAPHEME_BASE", "graphemeBase"); ("UPROPS_S_TERM", "sentenceTerminalPunctuation");
  ("UPROPS_VARIATION_SELECTOR", "variationSelector"); ("UPROPS_PATTERN_SYNTAX", "patternSyntax"); ("UPROPS_PATTERN_WHITE_SPACE", "patternWhitespace");
  ("UPROPS_PREPENDED_CONCATENATION_MARK", "prependedConcatenationMark")].
(** test_exhaustive.py:61-68 *)
Definition binaryTest2List : list (string * string) := [
  ("UPROPS_2_EMOJI", "emoji"); ("UPROPS_2_EMOJI_PRESENTATION", "emojiPresentation"); ("UPROPS_2_EMOJI_MODIFIER", "emojiModifier");
  ("UPROPS_2_EMOJI_MODIFIER_BASE", "emojiModifierBase"); ("UPROPS_2_EMOJI_COMPONENT", "emojiComponent"); ("UPROPS_2_EXTENDED_PICTOGRAPHIC", "extendedPictograph")].
(** [CharProps.X]: CharProps imports all of uprops_h.  Simplification: an attribute that is not
    there is a NameError here and below, in Python an AttributeError. *)
Definition constantOf (name : string) : res Z := match dict_find uprops_h_env (lit name) with Some (VInt z) => Ok z | Some _ => Err TypeError | None => Err NameError end.
(** [getattr(charData, field)] for the fields of the second list, CharacterData.py:63-68 *)
Definition emojiOf (data : characterData) : dict bool := map (fun p => (lit (fst p), snd p)) [
  ("emoji", emoji data); ("emojiPresentation", emojiPresentation data); ("emojiModifier", emojiModifier data); ("emojiModifierBase", emojiModifierBase data);
  ("emojiComponent", emojiComponent data); ("extendedPictograph", extendedPictograph data)].
(** test_exhaustive.py:70-80 *)
Fixpoint doBinaryTests (cp column : Z) (fields : dict bool) (tests : list (string * string)) : res unit :=
  match tests with
  | [] => Ok tt
  | (propMask, field) :: rest =>
      let* shift := constantOf propMask in
      let* got := getBinaryProp icu cp shift column in
      match dict_find fields (lit field) with
      | None => Err NameError
      | Some expected => let* _ := doTest (Bool.eqb got expected) in doBinaryTests cp column fields rest
      end
  end.

Definition typeDictionary (name : string) : list (pval * pval) := mdict UCDTypeDictionaries_env (lit name).
(** a number looked up in a dictionary of UCDTypeDictionaries.py; its values are strings (C81) *)
Definition nameIn (name : string) (r : res Z) : res str :=
  let* k := r in
  let* v := vd_get (typeDictionary name) (VInt k) in
  match v with VStr s => Ok s | _ => Err TypeError end.

Section Test.
  (** the names and the layout properties, and [nfcTrie], [nfkcTrie] and [nfkc_cfTrie] *)
  Variables (N : names) (L : layout) (nfc nfkc nfkc_cf : norm2).

  (** test_exhaustive.py:89-114 what the library says *)
  Record answers := mkAnswers { a_sc : str; a_gc : str; a_cd : str; a_jt : str; a_jg : str; a_bc : str; a_aw : str; a_lb : str; a_sb : str; a_gcb : str; a_bmg : Z; a_bpb : Z;
    a_ijc : bool; a_ibc : bool; a_im : bool; a_dt : str; a_uc : str; a_lc : str; a_tc : str; a_inpc : str; a_insc : str; a_vo : str;
    a_nfc : option str; a_nfkc : option str; a_nfkc_cf : option str; a_name : str }.
  Definition answersFor (cp : Z) : res answers :=
    let* sc := nameIn "scriptNames" (getScript icu cp) in
    let* gc := nameIn "generalCategoryNames" (getGeneralCategory icu cp) in
    let* cd := nameIn "bidiClassNames" (getCharDirection icu_bidi cp) in
    let* jt := nameIn "joiningTypeNames" (getJoiningType icu_bidi cp) in
    let* jg := nameIn "joiningGroupNames" (getJoiningGroup icu_bidi cp) in
    let* bc := nameIn "blockNames" (getBlock icu cp) in
    let* aw := nameIn "eastAsianWidthNames" (getEastAsianWidth icu cp) in
    let* lb := nameIn "lineBreakNames" (getLineBreak icu cp) in
    let* sb := nameIn "sentenceBreakNames" (getSentenceBreak icu cp) in
    let* gcb := nameIn "graphemeClusterBreakNames" (getGraphemeClusterBreak icu cp) in
    let* bmg := getMirror icu_bidi cp in
    let* bpb := getPairedBracket icu_bidi cp in
    let* ijc := isJoinControl icu_bidi cp in
    let* ibc := isBidiControl icu_bidi cp in
    let* im := isMirrored icu_bidi cp in
    let* dt := nameIn "decompositionTypeNames" (getDecompType icu cp) in
    let* uc := toFullUpper icu_case cp in
    let* lc := toFullLower icu_case cp in
    let* tc := toFullTitle icu_case cp in
    let* inpc := nameIn "indicPositionalCategoryNames" (getInPC L cp) in
    let* insc := nameIn "indicSyllabicCategoryNames" (getInSC L cp) in
    let* vo := nameIn "verticalOrientationNames" (getVO L cp) in
    let* dnfc := getRawDecomposition nfc cp in
    let* dnfkc := getRawDecomposition nfkc cp in
    let* dnfkc_cf := getRawDecomposition nfkc_cf cp in
    let* name := getCharName N cp U_UNICODE_CHAR_NAME in
    Ok (mkAnswers sc gc cd jt jg bc aw lb sb gcb bmg bpb ijc ibc im dt uc lc tc inpc insc vo dnfc dnfkc dnfkc_cf name).
  (** test_exhaustive.py:147-153: the expected NFKC_CF decomposition, if it is looked at *)
  Definition expectedFold (cp : Z) (data : characterData) : option (option str) :=
    if str_eqb (decompositionType (decomp data)) (lit "none") then None
    else if optStr_eqb (nfkcCaseFolded (decomp data)) (Some [cp]) then Some (decomposition (decomp data)) else Some (nfkcCaseFolded (decomp data)).
  (** test_exhaustive.py:116-158; the comparisons raise the same exception, so they are made
      as one.  [chr(cp)] is [[cp]]: [answersFor] has failed unless it is a code point. *)
  Definition testOne (cp : Z) (data : characterData) : res unit :=
    let* a := answersFor cp in
    let* _ := doTest (forallb (fun b => b) [
      str_eqb (a_sc a) (script data); str_eqb (a_gc a) (generalCategory data); str_eqb (a_cd a) (bidiClass (bidi data)); str_eqb (a_jt a) (joiningType data);
      str_eqb (a_jg a) (joiningGroup data); str_eqb (a_bc a) (block data); str_eqb (a_aw a) (eastAsianWidth data); str_eqb (a_lb a) (lineBreak data);
      str_eqb (a_sb a) (sentenceBreak data); str_eqb (a_gcb a) (graphemeClusterBreak data); a_bmg a =? bidiMirroredGlyph (bidi data); a_bpb a =? bidiPairedBracket (bidi data);
      Bool.eqb (a_ijc a) (isJoiningControl data); Bool.eqb (a_ibc a) (bidiControl (bidi data)); Bool.eqb (a_im a) (bidiMirrored (bidi data));
      str_eqb (a_dt a) (decompositionType (decomp data)); str_eqb (a_uc a) (upperCase (case data)); str_eqb (a_lc a) (lowerCase (case data)); str_eqb (a_tc a) (titleCase (case data));
      str_eqb (a_inpc a) (positionalCategory (indic data)); str_eqb (a_insc a) (syllabicCategory (indic data)); str_eqb (a_vo a) (verticalOrientation data);
      if str_eqb (decompositionType (decomp data)) (lit "can") then optStr_eqb (a_nfc a) (decomposition (decomp data)) else true;
      optStr_eqb (a_nfkc a) (decomposition (decomp data));
      match expectedFold cp data with None => true | Some e => optStr_eqb (a_nfkc_cf a) e end;
      str_eqb (a_name a) (name data)]) in
    let* _ := doBinaryTests cp 1 (snd (binary data)) binaryTestList in
    doBinaryTests cp 2 (emojiOf data) binaryTest2List.
  (** test_exhaustive.py:88-158 *)
  Fixpoint testAll (d : characters) : res unit :=
    match d with [] => Ok tt | (cp, data) :: rest => let* _ := testOne cp data in testAll rest end.
  (** test_exhaustive.py:82-161; the second result is the class variable afterwards *)
  Definition test_exhaustive (groups : list (element * list element)) (d : characters) : res unit * characters :=
    match loadCharacterData d groups with
    | (Err e, d') => (Err e, d')
    | (Ok _, d') => (testAll d', d')
    end.
End Test.
