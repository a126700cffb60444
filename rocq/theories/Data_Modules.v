(** * The modules of constants of UnicodeData.

    Written by tools/gen_modules.py, which copies the statements of each file in order
    (of CaseProps.py and BidiProps.py only the constants).  [X_env] is the module after import. *)
From Coq Require Import ZArith List String.
From Verif Require Import Py Dict CharNames PyModule.
Import ListNotations.
Open Scope Z_scope.
Open Scope string_scope.

Definition ok_env (r : res (dict pval)) : dict pval := match r with Ok m => m | Err _ => [] end.

(** uchar_h.py:7-835 *)
Definition uchar_h_src : list stmt := [
  SDefMask (lit "U_MASK");
  SAssign (lit "U_UNICODE_VERSION") (EStr (lit "13.0"));
  SAssign (lit "UCHAR_MIN_VALUE") (EInt 0);
  SAssign (lit "UCHAR_MAX_VALUE") (EInt 1114111);
  SAssign (lit "UCHAR_ALPHABETIC") (EInt 0);
  SAssign (lit "UCHAR_BINARY_START") (EName (lit "UCHAR_ALPHABETIC"));
  SAssign (lit "UCHAR_ASCII_HEX_DIGIT") (EInt 1);
  SAssign (lit "UCHAR_BIDI_CONTROL") (EInt 2);
  SAssign (lit "UCHAR_BIDI_MIRRORED") (EInt 3);
  SAssign (lit "UCHAR_DASH") (EInt 4);
  SAssign (lit "UCHAR_DEFAULT_IGNORABLE_CODE_POINT") (EInt 5);
  SAssign (lit "UCHAR_DEPRECATED") (EInt 6);
  SAssign (lit "UCHAR_DIACRITIC") (EInt 7);
  SAssign (lit "UCHAR_EXTENDER") (EInt 8);
  SAssign (lit "UCHAR_FULL_COMPOSITION_EXCLUSION") (EInt 9);
  SAssign (lit "UCHAR_GRAPHEME_BASE") (EInt 10);
  SAssign (lit "UCHAR_GRAPHEME_EXTEND") (EInt 11);
  SAssign (lit "UCHAR_GRAPHEME_LINK") (EInt 12);
  SAssign (lit "UCHAR_HEX_DIGIT") (EInt 13);
  SAssign (lit "UCHAR_HYPHEN") (EInt 14);
  SAssign (lit "UCHAR_ID_CONTINUE") (EInt 15);
  SAssign (lit "UCHAR_ID_START") (EInt 16);
  SAssign (lit "UCHAR_IDEOGRAPHIC") (EInt 17);
  SAssign (lit "UCHAR_IDS_BINARY_OPERATOR") (EInt 18);
  SAssign (lit "UCHAR_IDS_TRINARY_OPERATOR") (EInt 19);
  SAssign (lit "UCHAR_JOIN_CONTROL") (EInt 20);
  SAssign (lit "UCHAR_LOGICAL_ORDER_EXCEPTION") (EInt 21);
  SAssign (lit "UCHAR_LOWERCASE") (EInt 22);
  SAssign (lit "UCHAR_MATH") (EInt 23);
  SAssign (lit "UCHAR_NONCHARACTER_CODE_POINT") (EInt 24);
  SAssign (lit "UCHAR_QUOTATION_MARK") (EInt 25);
  SAssign (lit "UCHAR_RADICAL") (EInt 26);
  SAssign (lit "UCHAR_SOFT_DOTTED") (EInt 27);
  SAssign (lit "UCHAR_TERMINAL_PUNCTUATION") (EInt 28);
  SAssign (lit "UCHAR_UNIFIED_IDEOGRAPH") (EInt 29);
  SAssign (lit "UCHAR_UPPERCASE") (EInt 30);
  SAssign (lit "UCHAR_WHITE_SPACE") (EInt 31);
  SAssign (lit "UCHAR_XID_CONTINUE") (EInt 32);
  SAssign (lit "UCHAR_XID_START") (EInt 33);
  SAssign (lit "UCHAR_CASE_SENSITIVE") (EInt 34);
  SAssign (lit "UCHAR_S_TERM") (EInt 35);
  SAssign (lit "UCHAR_VARIATION_SELECTOR") (EInt 36);
  SAssign (lit "UCHAR_NFD_INERT") (EInt 37);
  SAssign (lit "UCHAR_NFKD_INERT") (EInt 38);
  SAssign (lit "UCHAR_NFC_INERT") (EInt 39);
  SAssign (lit "UCHAR_NFKC_INERT") (EInt 40);
  SAssign (lit "UCHAR_SEGMENT_STARTER") (EInt 41);
  SAssign (lit "UCHAR_PATTERN_SYNTAX") (EInt 42);
  SAssign (lit "UCHAR_PATTERN_WHITE_SPACE") (EInt 43);
  SAssign (lit "UCHAR_POSIX_ALNUM") (EInt 44);
  SAssign (lit "UCHAR_POSIX_BLANK") (EInt 45);
  SAssign (lit "UCHAR_POSIX_GRAPH") (EInt 46);
  SAssign (lit "UCHAR_POSIX_PRINT") (EInt 47);
  SAssign (lit "UCHAR_POSIX_XDIGIT") (EInt 48);
  SAssign (lit "UCHAR_CASED") (EInt 49);
  SAssign (lit "UCHAR_CASE_IGNORABLE") (EInt 50);
  SAssign (lit "UCHAR_CHANGES_WHEN_LOWERCASED") (EInt 51);
  SAssign (lit "UCHAR_CHANGES_WHEN_UPPERCASED") (EInt 52);
  SAssign (lit "UCHAR_CHANGES_WHEN_TITLECASED") (EInt 53);
  SAssign (lit "UCHAR_CHANGES_WHEN_CASEFOLDED") (EInt 54);
  SAssign (lit "UCHAR_CHANGES_WHEN_CASEMAPPED") (EInt 55);
  SAssign (lit "UCHAR_CHANGES_WHEN_NFKC_CASEFOLDED") (EInt 56);
  SAssign (lit "UCHAR_EMOJI") (EInt 57);
  SAssign (lit "UCHAR_EMOJI_PRESENTATION") (EInt 58);
  SAssign (lit "UCHAR_EMOJI_MODIFIER") (EInt 59);
  SAssign (lit "UCHAR_EMOJI_MODIFIER_BASE") (EInt 60);
  SAssign (lit "UCHAR_EMOJI_COMPONENT") (EInt 61);
  SAssign (lit "UCHAR_REGIONAL_INDICATOR") (EInt 62);
  SAssign (lit "UCHAR_PREPENDED_CONCATENATION_MARK") (EInt 63);
  SAssign (lit "UCHAR_EXTENDED_PICTOGRAPHIC") (EInt 64);
  SAssign (lit "UCHAR_BIDI_CLASS") (EInt 4096);
  SAssign (lit "UCHAR_INT_START") (EName (lit "UCHAR_BIDI_CLASS"));
  SAssign (lit "UCHAR_BLOCK") (EInt 4097);
  SAssign (lit "UCHAR_CANONICAL_COMBINING_CLASS") (EInt 4098);
  SAssign (lit "UCHAR_DECOMPOSITION_TYPE") (EInt 4099);
  SAssign (lit "UCHAR_EAST_ASIAN_WIDTH") (EInt 4100);
  SAssign (lit "UCHAR_GENERAL_CATEGORY") (EInt 4101);
  SAssign (lit "UCHAR_JOINING_GROUP") (EInt 4102);
  SAssign (lit "UCHAR_JOINING_TYPE") (EInt 4103);
  SAssign (lit "UCHAR_LINE_BREAK") (EInt 4104);
  SAssign (lit "UCHAR_NUMERIC_TYPE") (EInt 4105);
  SAssign (lit "UCHAR_SCRIPT") (EInt 4106);
  SAssign (lit "UCHAR_HANGUL_SYLLABLE_TYPE") (EInt 4107);
  SAssign (lit "UCHAR_NFD_QUICK_CHECK") (EInt 4108);
  SAssign (lit "UCHAR_NFKD_QUICK_CHECK") (EInt 4109);
  SAssign (lit "UCHAR_NFC_QUICK_CHECK") (EInt 4110);
  SAssign (lit "UCHAR_NFKC_QUICK_CHECK") (EInt 4111);
  SAssign (lit "UCHAR_LEAD_CANONICAL_COMBINING_CLASS") (EInt 4112);
  SAssign (lit "UCHAR_TRAIL_CANONICAL_COMBINING_CLASS") (EInt 4113);
  SAssign (lit "UCHAR_GRAPHEME_CLUSTER_BREAK") (EInt 4114);
  SAssign (lit "UCHAR_SENTENCE_BREAK") (EInt 4115);
  SAssign (lit "UCHAR_WORD_BREAK") (EInt 4116);
  SAssign (lit "UCHAR_BIDI_PAIRED_BRACKET_TYPE") (EInt 4117);
  SAssign (lit "UCHAR_INDIC_POSITIONAL_CATEGORY") (EInt 4118);
  SAssign (lit "UCHAR_INDIC_SYLLABIC_CATEGORY") (EInt 4119);
  SAssign (lit "UCHAR_VERTICAL_ORIENTATION") (EInt 4120);
  SAssign (lit "UCHAR_GENERAL_CATEGORY_MASK") (EInt 8192);
  SAssign (lit "UCHAR_MASK_START") (EName (lit "UCHAR_GENERAL_CATEGORY_MASK"));
  SAssign (lit "UCHAR_NUMERIC_VALUE") (EInt 12288);
  SAssign (lit "UCHAR_DOUBLE_START") (EName (lit "UCHAR_NUMERIC_VALUE"));
  SAssign (lit "UCHAR_AGE") (EInt 16384);
  SAssign (lit "UCHAR_STRING_START") (EName (lit "UCHAR_AGE"));
  SAssign (lit "UCHAR_BIDI_MIRRORING_GLYPH") (EInt 16385);
  SAssign (lit "UCHAR_CASE_FOLDING") (EInt 16386);
  SAssign (lit "UCHAR_LOWERCASE_MAPPING") (EInt 16388);
  SAssign (lit "UCHAR_NAME") (EInt 16389);
  SAssign (lit "UCHAR_SIMPLE_CASE_FOLDING") (EInt 16390);
  SAssign (lit "UCHAR_SIMPLE_LOWERCASE_MAPPING") (EInt 16391);
  SAssign (lit "UCHAR_SIMPLE_TITLECASE_MAPPING") (EInt 16392);
  SAssign (lit "UCHAR_SIMPLE_UPPERCASE_MAPPING") (EInt 16393);
  SAssign (lit "UCHAR_TITLECASE_MAPPING") (EInt 16394);
  SAssign (lit "UCHAR_UPPERCASE_MAPPING") (EInt 16396);
  SAssign (lit "UCHAR_BIDI_PAIRED_BRACKET") (EInt 16397);
  SAssign (lit "UCHAR_SCRIPT_EXTENSIONS") (EInt 28672);
  SAssign (lit "UCHAR_OTHER_PROPERTY_START") (EName (lit "UCHAR_SCRIPT_EXTENSIONS"));
  SAssign (lit "UCHAR_INVALID_CODE") (ENeg (EInt 1));
  SAssign (lit "U_UNASSIGNED") (EInt 0);
  SAssign (lit "U_GENERAL_OTHER_TYPES") (EInt 0);
  SAssign (lit "U_UPPERCASE_LETTER") (EInt 1);
  SAssign (lit "U_LOWERCASE_LETTER") (EInt 2);
  SAssign (lit "U_TITLECASE_LETTER") (EInt 3);
  SAssign (lit "U_MODIFIER_LETTER") (EInt 4);
  SAssign (lit "U_OTHER_LETTER") (EInt 5);
  SAssign (lit "U_NON_SPACING_MARK") (EInt 6);
  SAssign (lit "U_ENCLOSING_MARK") (EInt 7);
  SAssign (lit "U_COMBINING_SPACING_MARK") (EInt 8);
  SAssign (lit "U_DECIMAL_DIGIT_NUMBER") (EInt 9);
  SAssign (lit "U_LETTER_NUMBER") (EInt 10);
  SAssign (lit "U_OTHER_NUMBER") (EInt 11);
  SAssign (lit "U_SPACE_SEPARATOR") (EInt 12);
  SAssign (lit "U_LINE_SEPARATOR") (EInt 13);
  SAssign (lit "U_PARAGRAPH_SEPARATOR") (EInt 14);
  SAssign (lit "U_CONTROL_CHAR") (EInt 15);
  SAssign (lit "U_FORMAT_CHAR") (EInt 16);
  SAssign (lit "U_PRIVATE_USE_CHAR") (EInt 17);
  SAssign (lit "U_SURROGATE") (EInt 18);
  SAssign (lit "U_DASH_PUNCTUATION") (EInt 19);
  SAssign (lit "U_START_PUNCTUATION") (EInt 20);
  SAssign (lit "U_END_PUNCTUATION") (EInt 21);
  SAssign (lit "U_CONNECTOR_PUNCTUATION") (EInt 22);
  SAssign (lit "U_OTHER_PUNCTUATION") (EInt 23);
  SAssign (lit "U_MATH_SYMBOL") (EInt 24);
  SAssign (lit "U_CURRENCY_SYMBOL") (EInt 25);
  SAssign (lit "U_MODIFIER_SYMBOL") (EInt 26);
  SAssign (lit "U_OTHER_SYMBOL") (EInt 27);
  SAssign (lit "U_INITIAL_PUNCTUATION") (EInt 28);
  SAssign (lit "U_FINAL_PUNCTUATION") (EInt 29);
  SAssign (lit "U_CHAR_CATEGORY_COUNT") (EInt 30);
  SAssign (lit "U_GC_CN_MASK") (ECall (EName (lit "U_MASK")) (EName (lit "U_GENERAL_OTHER_TYPES")));
  SAssign (lit "U_GC_LU_MASK") (ECall (EName (lit "U_MASK")) (EName (lit "U_UPPERCASE_LETTER")));
  SAssign (lit "U_GC_LL_MASK") (ECall (EName (lit "U_MASK")) (EName (lit "U_LOWERCASE_LETTER")));
  SAssign (lit "U_GC_LT_MASK") (ECall (EName (lit "U_MASK")) (EName (lit "U_TITLECASE_LETTER")));
  SAssign (lit "U_GC_LM_MASK") (ECall (EName (lit "U_MASK")) (EName (lit "U_MODIFIER_LETTER")));
  SAssign (lit "U_GC_LO_MASK") (ECall (EName (lit "U_MASK")) (EName (lit "U_OTHER_LETTER")));
  SAssign (lit "U_GC_MN_MASK") (ECall (EName (lit "U_MASK")) (EName (lit "U_NON_SPACING_MARK")));
  SAssign (lit "U_GC_ME_MASK") (ECall (EName (lit "U_MASK")) (EName (lit "U_ENCLOSING_MARK")));
  SAssign (lit "U_GC_MC_MASK") (ECall (EName (lit "U_MASK")) (EName (lit "U_COMBINING_SPACING_MARK")));
  SAssign (lit "U_GC_ND_MASK") (ECall (EName (lit "U_MASK")) (EName (lit "U_DECIMAL_DIGIT_NUMBER")));
  SAssign (lit "U_GC_NL_MASK") (ECall (EName (lit "U_MASK")) (EName (lit "U_LETTER_NUMBER")));
  SAssign (lit "U_GC_NO_MASK") (ECall (EName (lit "U_MASK")) (EName (lit "U_OTHER_NUMBER")));
  SAssign (lit "U_GC_ZS_MASK") (ECall (EName (lit "U_MASK")) (EName (lit "U_SPACE_SEPARATOR")));
  SAssign (lit "U_GC_ZL_MASK") (ECall (EName (lit "U_MASK")) (EName (lit "U_LINE_SEPARATOR")));
  SAssign (lit "U_GC_ZP_MASK") (ECall (EName (lit "U_MASK")) (EName (lit "U_PARAGRAPH_SEPARATOR")));
  SAssign (lit "U_GC_CC_MASK") (ECall (EName (lit "U_MASK")) (EName (lit "U_CONTROL_CHAR")));
  SAssign (lit "U_GC_CF_MASK") (ECall (EName (lit "U_MASK")) (EName (lit "U_FORMAT_CHAR")));
  SAssign (lit "U_GC_CO_MASK") (ECall (EName (lit "U_MASK")) (EName (lit "U_PRIVATE_USE_CHAR")));
  SAssign (lit "U_GC_CS_MASK") (ECall (EName (lit "U_MASK")) (EName (lit "U_SURROGATE")));
  SAssign (lit "U_GC_PD_MASK") (ECall (EName (lit "U_MASK")) (EName (lit "U_DASH_PUNCTUATION")));
  SAssign (lit "U_GC_PS_MASK") (ECall (EName (lit "U_MASK")) (EName (lit "U_START_PUNCTUATION")));
  SAssign (lit "U_GC_PE_MASK") (ECall (EName (lit "U_MASK")) (EName (lit "U_END_PUNCTUATION")));
  SAssign (lit "U_GC_PC_MASK") (ECall (EName (lit "U_MASK")) (EName (lit "U_CONNECTOR_PUNCTUATION")));
  SAssign (lit "U_GC_PO_MASK") (ECall (EName (lit "U_MASK")) (EName (lit "U_OTHER_PUNCTUATION")));
  SAssign (lit "U_GC_SM_MASK") (ECall (EName (lit "U_MASK")) (EName (lit "U_MATH_SYMBOL")));
  SAssign (lit "U_GC_SC_MASK") (ECall (EName (lit "U_MASK")) (EName (lit "U_CURRENCY_SYMBOL")));
  SAssign (lit "U_GC_SK_MASK") (ECall (EName (lit "U_MASK")) (EName (lit "U_MODIFIER_SYMBOL")));
  SAssign (lit "U_GC_SO_MASK") (ECall (EName (lit "U_MASK")) (EName (lit "U_OTHER_SYMBOL")));
  SAssign (lit "U_GC_PI_MASK") (ECall (EName (lit "U_MASK")) (EName (lit "U_INITIAL_PUNCTUATION")));
  SAssign (lit "U_GC_PF_MASK") (ECall (EName (lit "U_MASK")) (EName (lit "U_FINAL_PUNCTUATION")));
  SAssign (lit "U_GC_L_MASK") (EBin OpOr (EBin OpOr (EBin OpOr (EBin OpOr (EName (lit "U_GC_LU_MASK")) (EName (lit "U_GC_LL_MASK"))) (EName (lit "U_GC_LT_MASK"))) (EName (lit "U_GC_LM_MASK"))) (EName (lit "U_GC_LO_MASK")));
  SAssign (lit "U_GC_LC_MASK") (EBin OpOr (EBin OpOr (EName (lit "U_GC_LU_MASK")) (EName (lit "U_GC_LL_MASK"))) (EName (lit "U_GC_LT_MASK")));
  SAssign (lit "U_GC_M_MASK") (EBin OpOr (EBin OpOr (EName (lit "U_GC_MN_MASK")) (EName (lit "U_GC_ME_MASK"))) (EName (lit "U_GC_MC_MASK")));
  SAssign (lit "U_GC_N_MASK") (EBin OpOr (EBin OpOr (EName (lit "U_GC_ND_MASK")) (EName (lit "U_GC_NL_MASK"))) (EName (lit "U_GC_NO_MASK")));
  SAssign (lit "U_GC_Z_MASK") (EBin OpOr (EBin OpOr (EName (lit "U_GC_ZS_MASK")) (EName (lit "U_GC_ZL_MASK"))) (EName (lit "U_GC_ZP_MASK")));
  SAssign (lit "U_GC_C_MASK") (EBin OpOr (EBin OpOr (EBin OpOr (EBin OpOr (EName (lit "U_GC_CN_MASK")) (EName (lit "U_GC_CC_MASK"))) (EName (lit "U_GC_CF_MASK"))) (EName (lit "U_GC_CO_MASK"))) (EName (lit "U_GC_CS_MASK")));
  SAssign (lit "U_GC_P_MASK") (EBin OpOr (EBin OpOr (EBin OpOr (EBin OpOr (EBin OpOr (EBin OpOr (EName (lit "U_GC_PD_MASK")) (EName (lit "U_GC_PS_MASK"))) (EName (lit "U_GC_PE_MASK"))) (EName (lit "U_GC_PC_MASK"))) (EName (lit "U_GC_PO_MASK"))) (EName (lit "U_GC_PI_MASK"))) (EName (lit "U_GC_PF_MASK")));
  SAssign (lit "U_GC_S_MASK") (EBin OpOr (EBin OpOr (EBin OpOr (EName (lit "U_GC_SM_MASK")) (EName (lit "U_GC_SC_MASK"))) (EName (lit "U_GC_SK_MASK"))) (EName (lit "U_GC_SO_MASK")));
  SAssign (lit "U_LEFT_TO_RIGHT") (EInt 0);
  SAssign (lit "U_RIGHT_TO_LEFT") (EInt 1);
  SAssign (lit "U_EUROPEAN_NUMBER") (EInt 2);
  SAssign (lit "U_EUROPEAN_NUMBER_SEPARATOR") (EInt 3);
  SAssign (lit "U_EUROPEAN_NUMBER_TERMINATOR") (EInt 4);
  SAssign (lit "U_ARABIC_NUMBER") (EInt 5);
  SAssign (lit "U_COMMON_NUMBER_SEPARATOR") (EInt 6);
  SAssign (lit "U_BLOCK_SEPARATOR") (EInt 7);
  SAssign (lit "U_SEGMENT_SEPARATOR") (EInt 8);
  SAssign (lit "U_WHITE_SPACE_NEUTRAL") (EInt 9);
  SAssign (lit "U_OTHER_NEUTRAL") (EInt 10);
  SAssign (lit "U_LEFT_TO_RIGHT_EMBEDDING") (EInt 11);
  SAssign (lit "U_LEFT_TO_RIGHT_OVERRIDE") (EInt 12);
  SAssign (lit "U_RIGHT_TO_LEFT_ARABIC") (EInt 13);
  SAssign (lit "U_RIGHT_TO_LEFT_EMBEDDING") (EInt 14);
  SAssign (lit "U_RIGHT_TO_LEFT_OVERRIDE") (EInt 15);
  SAssign (lit "U_POP_DIRECTIONAL_FORMAT") (EInt 16);
  SAssign (lit "U_DIR_NON_SPACING_MARK") (EInt 17);
  SAssign (lit "U_BOUNDARY_NEUTRAL") (EInt 18);
  SAssign (lit "U_FIRST_STRONG_ISOLATE") (EInt 19);
  SAssign (lit "U_LEFT_TO_RIGHT_ISOLATE") (EInt 20);
  SAssign (lit "U_RIGHT_TO_LEFT_ISOLATE") (EInt 21);
  SAssign (lit "U_POP_DIRECTIONAL_ISOLATE") (EInt 22);
  SAssign (lit "U_BPT_NONE") (EInt 0);
  SAssign (lit "U_BPT_OPEN") (EInt 1);
  SAssign (lit "U_BPT_CLOSE") (EInt 2);
  SAssign (lit "UBLOCK_NO_BLOCK") (EInt 0);
  SAssign (lit "UBLOCK_BASIC_LATIN") (EInt 1);
  SAssign (lit "UBLOCK_LATIN_1_SUPPLEMENT") (EInt 2);
  SAssign (lit "UBLOCK_LATIN_EXTENDED_A") (EInt 3);
  SAssign (lit "UBLOCK_LATIN_EXTENDED_B") (EInt 4);
  SAssign (lit "UBLOCK_IPA_EXTENSIONS") (EInt 5);
  SAssign (lit "UBLOCK_SPACING_MODIFIER_LETTERS") (EInt 6);
  SAssign (lit "UBLOCK_COMBINING_DIACRITICAL_MARKS") (EInt 7);
  SAssign (lit "UBLOCK_GREEK") (EInt 8);
  SAssign (lit "UBLOCK_CYRILLIC") (EInt 9);
  SAssign (lit "UBLOCK_ARMENIAN") (EInt 10);
  SAssign (lit "UBLOCK_HEBREW") (EInt 11);
  SAssign (lit "UBLOCK_ARABIC") (EInt 12);
  SAssign (lit "UBLOCK_SYRIAC") (EInt 13);
  SAssign (lit "UBLOCK_THAANA") (EInt 14);
  SAssign (lit "UBLOCK_DEVANAGARI") (EInt 15);
  SAssign (lit "UBLOCK_BENGALI") (EInt 16);
  SAssign (lit "UBLOCK_GURMUKHI") (EInt 17);
  SAssign (lit "UBLOCK_GUJARATI") (EInt 18);
  SAssign (lit "UBLOCK_ORIYA") (EInt 19);
  SAssign (lit "UBLOCK_TAMIL") (EInt 20);
  SAssign (lit "UBLOCK_TELUGU") (EInt 21);
  SAssign (lit "UBLOCK_KANNADA") (EInt 22);
  SAssign (lit "UBLOCK_MALAYALAM") (EInt 23);
  SAssign (lit "UBLOCK_SINHALA") (EInt 24);
  SAssign (lit "UBLOCK_THAI") (EInt 25);
  SAssign (lit "UBLOCK_LAO") (EInt 26);
  SAssign (lit "UBLOCK_TIBETAN") (EInt 27);
  SAssign (lit "UBLOCK_MYANMAR") (EInt 28);
  SAssign (lit "UBLOCK_GEORGIAN") (EInt 29);
  SAssign (lit "UBLOCK_HANGUL_JAMO") (EInt 30);
  SAssign (lit "UBLOCK_ETHIOPIC") (EInt 31);
  SAssign (lit "UBLOCK_CHEROKEE") (EInt 32);
  SAssign (lit "UBLOCK_UNIFIED_CANADIAN_ABORIGINAL_SYLLABICS") (EInt 33);
  SAssign (lit "UBLOCK_OGHAM") (EInt 34);
  SAssign (lit "UBLOCK_RUNIC") (EInt 35);
  SAssign (lit "UBLOCK_KHMER") (EInt 36);
  SAssign (lit "UBLOCK_MONGOLIAN") (EInt 37);
  SAssign (lit "UBLOCK_LATIN_EXTENDED_ADDITIONAL") (EInt 38);
  SAssign (lit "UBLOCK_GREEK_EXTENDED") (EInt 39);
  SAssign (lit "UBLOCK_GENERAL_PUNCTUATION") (EInt 40);
  SAssign (lit "UBLOCK_SUPERSCRIPTS_AND_SUBSCRIPTS") (EInt 41);
  SAssign (lit "UBLOCK_CURRENCY_SYMBOLS") (EInt 42);
  SAssign (lit "UBLOCK_COMBINING_MARKS_FOR_SYMBOLS") (EInt 43);
  SAssign (lit "UBLOCK_LETTERLIKE_SYMBOLS") (EInt 44);
  SAssign (lit "UBLOCK_NUMBER_FORMS") (EInt 45);
  SAssign (lit "UBLOCK_ARROWS") (EInt 46);
  SAssign (lit "UBLOCK_MATHEMATICAL_OPERATORS") (EInt 47);
  SAssign (lit "UBLOCK_MISCELLANEOUS_TECHNICAL") (EInt 48);
  SAssign (lit "UBLOCK_CONTROL_PICTURES") (EInt 49);
  SAssign (lit "UBLOCK_OPTICAL_CHARACTER_RECOGNITION") (EInt 50);
  SAssign (lit "UBLOCK_ENCLOSED_ALPHANUMERICS") (EInt 51);
  SAssign (lit "UBLOCK_BOX_DRAWING") (EInt 52);
  SAssign (lit "UBLOCK_BLOCK_ELEMENTS") (EInt 53);
  SAssign (lit "UBLOCK_GEOMETRIC_SHAPES") (EInt 54);
  SAssign (lit "UBLOCK_MISCELLANEOUS_SYMBOLS") (EInt 55);
  SAssign (lit "UBLOCK_DINGBATS") (EInt 56);
  SAssign (lit "UBLOCK_BRAILLE_PATTERNS") (EInt 57);
  SAssign (lit "UBLOCK_CJK_RADICALS_SUPPLEMENT") (EInt 58);
  SAssign (lit "UBLOCK_KANGXI_RADICALS") (EInt 59);
  SAssign (lit "UBLOCK_IDEOGRAPHIC_DESCRIPTION_CHARACTERS") (EInt 60);
  SAssign (lit "UBLOCK_CJK_SYMBOLS_AND_PUNCTUATION") (EInt 61);
  SAssign (lit "UBLOCK_HIRAGANA") (EInt 62);
  SAssign (lit "UBLOCK_KATAKANA") (EInt 63);
  SAssign (lit "UBLOCK_BOPOMOFO") (EInt 64);
  SAssign (lit "UBLOCK_HANGUL_COMPATIBILITY_JAMO") (EInt 65);
  SAssign (lit "UBLOCK_KANBUN") (EInt 66);
  SAssign (lit "UBLOCK_BOPOMOFO_EXTENDED") (EInt 67);
  SAssign (lit "UBLOCK_ENCLOSED_CJK_LETTERS_AND_MONTHS") (EInt 68);
  SAssign (lit "UBLOCK_CJK_COMPATIBILITY") (EInt 69);
  SAssign (lit "UBLOCK_CJK_UNIFIED_IDEOGRAPHS_EXTENSION_A") (EInt 70);
  SAssign (lit "UBLOCK_CJK_UNIFIED_IDEOGRAPHS") (EInt 71);
  SAssign (lit "UBLOCK_YI_SYLLABLES") (EInt 72);
  SAssign (lit "UBLOCK_YI_RADICALS") (EInt 73);
  SAssign (lit "UBLOCK_HANGUL_SYLLABLES") (EInt 74);
  SAssign (lit "UBLOCK_HIGH_SURROGATES") (EInt 75);
  SAssign (lit "UBLOCK_HIGH_PRIVATE_USE_SURROGATES") (EInt 76);
  SAssign (lit "UBLOCK_LOW_SURROGATES") (EInt 77);
  SAssign (lit "UBLOCK_PRIVATE_USE_AREA") (EInt 78);
  SAssign (lit "UBLOCK_PRIVATE_USE") (EName (lit "UBLOCK_PRIVATE_USE_AREA"));
  SAssign (lit "UBLOCK_CJK_COMPATIBILITY_IDEOGRAPHS") (EInt 79);
  SAssign (lit "UBLOCK_ALPHABETIC_PRESENTATION_FORMS") (EInt 80);
  SAssign (lit "UBLOCK_ARABIC_PRESENTATION_FORMS_A") (EInt 81);
  SAssign (lit "UBLOCK_COMBINING_HALF_MARKS") (EInt 82);
  SAssign (lit "UBLOCK_CJK_COMPATIBILITY_FORMS") (EInt 83);
  SAssign (lit "UBLOCK_SMALL_FORM_VARIANTS") (EInt 84);
  SAssign (lit "UBLOCK_ARABIC_PRESENTATION_FORMS_B") (EInt 85);
  SAssign (lit "UBLOCK_SPECIALS") (EInt 86);
  SAssign (lit "UBLOCK_HALFWIDTH_AND_FULLWIDTH_FORMS") (EInt 87);
  SAssign (lit "UBLOCK_OLD_ITALIC") (EInt 88);
  SAssign (lit "UBLOCK_GOTHIC") (EInt 89);
  SAssign (lit "UBLOCK_DESERET") (EInt 90);
  SAssign (lit "UBLOCK_BYZANTINE_MUSICAL_SYMBOLS") (EInt 91);
  SAssign (lit "UBLOCK_MUSICAL_SYMBOLS") (EInt 92);
  SAssign (lit "UBLOCK_MATHEMATICAL_ALPHANUMERIC_SYMBOLS") (EInt 93);
  SAssign (lit "UBLOCK_CJK_UNIFIED_IDEOGRAPHS_EXTENSION_B") (EInt 94);
  SAssign (lit "UBLOCK_CJK_COMPATIBILITY_IDEOGRAPHS_SUPPLEMENT") (EInt 95);
  SAssign (lit "UBLOCK_TAGS") (EInt 96);
  SAssign (lit "UBLOCK_CYRILLIC_SUPPLEMENT") (EInt 97);
  SAssign (lit "UBLOCK_CYRILLIC_SUPPLEMENTARY") (EName (lit "UBLOCK_CYRILLIC_SUPPLEMENT"));
  SAssign (lit "UBLOCK_TAGALOG") (EInt 98);
  SAssign (lit "UBLOCK_HANUNOO") (EInt 99);
  SAssign (lit "UBLOCK_BUHID") (EInt 100);
  SAssign (lit "UBLOCK_TAGBANWA") (EInt 101);
  SAssign (lit "UBLOCK_MISCELLANEOUS_MATHEMATICAL_SYMBOLS_A") (EInt 102);
  SAssign (lit "UBLOCK_SUPPLEMENTAL_ARROWS_A") (EInt 103);
  SAssign (lit "UBLOCK_SUPPLEMENTAL_ARROWS_B") (EInt 104);
  SAssign (lit "UBLOCK_MISCELLANEOUS_MATHEMATICAL_SYMBOLS_B") (EInt 105);
  SAssign (lit "UBLOCK_SUPPLEMENTAL_MATHEMATICAL_OPERATORS") (EInt 106);
  SAssign (lit "UBLOCK_KATAKANA_PHONETIC_EXTENSIONS") (EInt 107);
  SAssign (lit "UBLOCK_VARIATION_SELECTORS") (EInt 108);
  SAssign (lit "UBLOCK_SUPPLEMENTARY_PRIVATE_USE_AREA_A") (EInt 109);
  SAssign (lit "UBLOCK_SUPPLEMENTARY_PRIVATE_USE_AREA_B") (EInt 110);
  SAssign (lit "UBLOCK_LIMBU") (EInt 111);
  SAssign (lit "UBLOCK_TAI_LE") (EInt 112);
  SAssign (lit "UBLOCK_KHMER_SYMBOLS") (EInt 113);
  SAssign (lit "UBLOCK_PHONETIC_EXTENSIONS") (EInt 114);
  SAssign (lit "UBLOCK_MISCELLANEOUS_SYMBOLS_AND_ARROWS") (EInt 115);
  SAssign (lit "UBLOCK_YIJING_HEXAGRAM_SYMBOLS") (EInt 116);
  SAssign (lit "UBLOCK_LINEAR_B_SYLLABARY") (EInt 117);
  SAssign (lit "UBLOCK_LINEAR_B_IDEOGRAMS") (EInt 118);
  SAssign (lit "UBLOCK_AEGEAN_NUMBERS") (EInt 119);
  SAssign (lit "UBLOCK_UGARITIC") (EInt 120);
  SAssign (lit "UBLOCK_SHAVIAN") (EInt 121);
  SAssign (lit "UBLOCK_OSMANYA") (EInt 122);
  SAssign (lit "UBLOCK_CYPRIOT_SYLLABARY") (EInt 123);
  SAssign (lit "UBLOCK_TAI_XUAN_JING_SYMBOLS") (EInt 124);
  SAssign (lit "UBLOCK_VARIATION_SELECTORS_SUPPLEMENT") (EInt 125);
  SAssign (lit "UBLOCK_ANCIENT_GREEK_MUSICAL_NOTATION") (EInt 126);
  SAssign (lit "UBLOCK_ANCIENT_GREEK_NUMBERS") (EInt 127);
  SAssign (lit "UBLOCK_ARABIC_SUPPLEMENT") (EInt 128);
  SAssign (lit "UBLOCK_BUGINESE") (EInt 129);
  SAssign (lit "UBLOCK_CJK_STROKES") (EInt 130);
  SAssign (lit "UBLOCK_COMBINING_DIACRITICAL_MARKS_SUPPLEMENT") (EInt 131);
  SAssign (lit "UBLOCK_COPTIC") (EInt 132);
  SAssign (lit "UBLOCK_ETHIOPIC_EXTENDED") (EInt 133);
  SAssign (lit "UBLOCK_ETHIOPIC_SUPPLEMENT") (EInt 134);
  SAssign (lit "UBLOCK_GEORGIAN_SUPPLEMENT") (EInt 135);
  SAssign (lit "UBLOCK_GLAGOLITIC") (EInt 136);
  SAssign (lit "UBLOCK_KHAROSHTHI") (EInt 137);
  SAssign (lit "UBLOCK_MODIFIER_TONE_LETTERS") (EInt 138);
  SAssign (lit "UBLOCK_NEW_TAI_LUE") (EInt 139);
  SAssign (lit "UBLOCK_OLD_PERSIAN") (EInt 140);
  SAssign (lit "UBLOCK_PHONETIC_EXTENSIONS_SUPPLEMENT") (EInt 141);
  SAssign (lit "UBLOCK_SUPPLEMENTAL_PUNCTUATION") (EInt 142);
  SAssign (lit "UBLOCK_SYLOTI_NAGRI") (EInt 143);
  SAssign (lit "UBLOCK_TIFINAGH") (EInt 144);
  SAssign (lit "UBLOCK_VERTICAL_FORMS") (EInt 145);
  SAssign (lit "UBLOCK_NKO") (EInt 146);
  SAssign (lit "UBLOCK_BALINESE") (EInt 147);
  SAssign (lit "UBLOCK_LATIN_EXTENDED_C") (EInt 148);
  SAssign (lit "UBLOCK_LATIN_EXTENDED_D") (EInt 149);
  SAssign (lit "UBLOCK_PHAGS_PA") (EInt 150);
  SAssign (lit "UBLOCK_PHOENICIAN") (EInt 151);
  SAssign (lit "UBLOCK_CUNEIFORM") (EInt 152);
  SAssign (lit "UBLOCK_CUNEIFORM_NUMBERS_AND_PUNCTUATION") (EInt 153);
  SAssign (lit "UBLOCK_COUNTING_ROD_NUMERALS") (EInt 154);
  SAssign (lit "UBLOCK_SUNDANESE") (EInt 155);
  SAssign (lit "UBLOCK_LEPCHA") (EInt 156);
  SAssign (lit "UBLOCK_OL_CHIKI") (EInt 157);
  SAssign (lit "UBLOCK_CYRILLIC_EXTENDED_A") (EInt 158);
  SAssign (lit "UBLOCK_VAI") (EInt 159);
  SAssign (lit "UBLOCK_CYRILLIC_EXTENDED_B") (EInt 160);
  SAssign (lit "UBLOCK_SAURASHTRA") (EInt 161);
  SAssign (lit "UBLOCK_KAYAH_LI") (EInt 162);
  SAssign (lit "UBLOCK_REJANG") (EInt 163);
  SAssign (lit "UBLOCK_CHAM") (EInt 164);
  SAssign (lit "UBLOCK_ANCIENT_SYMBOLS") (EInt 165);
  SAssign (lit "UBLOCK_PHAISTOS_DISC") (EInt 166);
  SAssign (lit "UBLOCK_LYCIAN") (EInt 167);
  SAssign (lit "UBLOCK_CARIAN") (EInt 168);
  SAssign (lit "UBLOCK_LYDIAN") (EInt 169);
  SAssign (lit "UBLOCK_MAHJONG_TILES") (EInt 170);
  SAssign (lit "UBLOCK_DOMINO_TILES") (EInt 171);
  SAssign (lit "UBLOCK_SAMARITAN") (EInt 172);
  SAssign (lit "UBLOCK_UNIFIED_CANADIAN_ABORIGINAL_SYLLABICS_EXTENDED") (EInt 173);
  SAssign (lit "UBLOCK_TAI_THAM") (EInt 174);
  SAssign (lit "UBLOCK_VEDIC_EXTENSIONS") (EInt 175);
  SAssign (lit "UBLOCK_LISU") (EInt 176);
  SAssign (lit "UBLOCK_BAMUM") (EInt 177);
  SAssign (lit "UBLOCK_COMMON_INDIC_NUMBER_FORMS") (EInt 178);
  SAssign (lit "UBLOCK_DEVANAGARI_EXTENDED") (EInt 179);
  SAssign (lit "UBLOCK_HANGUL_JAMO_EXTENDED_A") (EInt 180);
  SAssign (lit "UBLOCK_JAVANESE") (EInt 181);
  SAssign (lit "UBLOCK_MYANMAR_EXTENDED_A") (EInt 182);
  SAssign (lit "UBLOCK_TAI_VIET") (EInt 183);
  SAssign (lit "UBLOCK_MEETEI_MAYEK") (EInt 184);
  SAssign (lit "UBLOCK_HANGUL_JAMO_EXTENDED_B") (EInt 185);
  SAssign (lit "UBLOCK_IMPERIAL_ARAMAIC") (EInt 186);
  SAssign (lit "UBLOCK_OLD_SOUTH_ARABIAN") (EInt 187);
  SAssign (lit "UBLOCK_AVESTAN") (EInt 188);
  SAssign (lit "UBLOCK_INSCRIPTIONAL_PARTHIAN") (EInt 189);
  SAssign (lit "UBLOCK_INSCRIPTIONAL_PAHLAVI") (EInt 190);
  SAssign (lit "UBLOCK_OLD_TURKIC") (EInt 191);
  SAssign (lit "UBLOCK_RUMI_NUMERAL_SYMBOLS") (EInt 192);
  SAssign (lit "UBLOCK_KAITHI") (EInt 193);
  SAssign (lit "UBLOCK_EGYPTIAN_HIEROGLYPHS") (EInt 194);
  SAssign (lit "UBLOCK_ENCLOSED_ALPHANUMERIC_SUPPLEMENT") (EInt 195);
  SAssign (lit "UBLOCK_ENCLOSED_IDEOGRAPHIC_SUPPLEMENT") (EInt 196);
  SAssign (lit "UBLOCK_CJK_UNIFIED_IDEOGRAPHS_EXTENSION_C") (EInt 197);
  SAssign (lit "UBLOCK_MANDAIC") (EInt 198);
  SAssign (lit "UBLOCK_BATAK") (EInt 199);
  SAssign (lit "UBLOCK_ETHIOPIC_EXTENDED_A") (EInt 200);
  SAssign (lit "UBLOCK_BRAHMI") (EInt 201);
  SAssign (lit "UBLOCK_BAMUM_SUPPLEMENT") (EInt 202);
  SAssign (lit "UBLOCK_KANA_SUPPLEMENT") (EInt 203);
  SAssign (lit "UBLOCK_PLAYING_CARDS") (EInt 204);
  SAssign (lit "UBLOCK_MISCELLANEOUS_SYMBOLS_AND_PICTOGRAPHS") (EInt 205);
  SAssign (lit "UBLOCK_EMOTICONS") (EInt 206);
  SAssign (lit "UBLOCK_TRANSPORT_AND_MAP_SYMBOLS") (EInt 207);
  SAssign (lit "UBLOCK_ALCHEMICAL_SYMBOLS") (EInt 208);
  SAssign (lit "UBLOCK_CJK_UNIFIED_IDEOGRAPHS_EXTENSION_D") (EInt 209);
  SAssign (lit "UBLOCK_ARABIC_EXTENDED_A") (EInt 210);
  SAssign (lit "UBLOCK_ARABIC_MATHEMATICAL_ALPHABETIC_SYMBOLS") (EInt 211);
  SAssign (lit "UBLOCK_CHAKMA") (EInt 212);
  SAssign (lit "UBLOCK_MEETEI_MAYEK_EXTENSIONS") (EInt 213);
  SAssign (lit "UBLOCK_MEROITIC_CURSIVE") (EInt 214);
  SAssign (lit "UBLOCK_MEROITIC_HIEROGLYPHS") (EInt 215);
  SAssign (lit "UBLOCK_MIAO") (EInt 216);
  SAssign (lit "UBLOCK_SHARADA") (EInt 217);
  SAssign (lit "UBLOCK_SORA_SOMPENG") (EInt 218);
  SAssign (lit "UBLOCK_SUNDANESE_SUPPLEMENT") (EInt 219);
  SAssign (lit "UBLOCK_TAKRI") (EInt 220);
  SAssign (lit "UBLOCK_BASSA_VAH") (EInt 221);
  SAssign (lit "UBLOCK_CAUCASIAN_ALBANIAN") (EInt 222);
  SAssign (lit "UBLOCK_COPTIC_EPACT_NUMBERS") (EInt 223);
  SAssign (lit "UBLOCK_COMBINING_DIACRITICAL_MARKS_EXTENDED") (EInt 224);
  SAssign (lit "UBLOCK_DUPLOYAN") (EInt 225);
  SAssign (lit "UBLOCK_ELBASAN") (EInt 226);
  SAssign (lit "UBLOCK_GEOMETRIC_SHAPES_EXTENDED") (EInt 227);
  SAssign (lit "UBLOCK_GRANTHA") (EInt 228);
  SAssign (lit "UBLOCK_KHOJKI") (EInt 229);
  SAssign (lit "UBLOCK_KHUDAWADI") (EInt 230);
  SAssign (lit "UBLOCK_LATIN_EXTENDED_E") (EInt 231);
  SAssign (lit "UBLOCK_LINEAR_A") (EInt 232);
  SAssign (lit "UBLOCK_MAHAJANI") (EInt 233);
  SAssign (lit "UBLOCK_MANICHAEAN") (EInt 234);
  SAssign (lit "UBLOCK_MENDE_KIKAKUI") (EInt 235);
  SAssign (lit "UBLOCK_MODI") (EInt 236);
  SAssign (lit "UBLOCK_MRO") (EInt 237);
  SAssign (lit "UBLOCK_MYANMAR_EXTENDED_B") (EInt 238);
  SAssign (lit "UBLOCK_NABATAEAN") (EInt 239);
  SAssign (lit "UBLOCK_OLD_NORTH_ARABIAN") (EInt 240);
  SAssign (lit "UBLOCK_OLD_PERMIC") (EInt 241);
  SAssign (lit "UBLOCK_ORNAMENTAL_DINGBATS") (EInt 242);
  SAssign (lit "UBLOCK_PAHAWH_HMONG") (EInt 243);
  SAssign (lit "UBLOCK_PALMYRENE") (EInt 244);
  SAssign (lit "UBLOCK_PAU_CIN_HAU") (EInt 245);
  SAssign (lit "UBLOCK_PSALTER_PAHLAVI") (EInt 246);
  SAssign (lit "UBLOCK_SHORTHAND_FORMAT_CONTROLS") (EInt 247);
  SAssign (lit "UBLOCK_SIDDHAM") (EInt 248);
  SAssign (lit "UBLOCK_SINHALA_ARCHAIC_NUMBERS") (EInt 249);
  SAssign (lit "UBLOCK_SUPPLEMENTAL_ARROWS_C") (EInt 250);
  SAssign (lit "UBLOCK_TIRHUTA") (EInt 251);
  SAssign (lit "UBLOCK_WARANG_CITI") (EInt 252);
  SAssign (lit "UBLOCK_AHOM") (EInt 253);
  SAssign (lit "UBLOCK_ANATOLIAN_HIEROGLYPHS") (EInt 254);
  SAssign (lit "UBLOCK_CHEROKEE_SUPPLEMENT") (EInt 255);
  SAssign (lit "UBLOCK_CJK_UNIFIED_IDEOGRAPHS_EXTENSION_E") (EInt 256);
  SAssign (lit "UBLOCK_EARLY_DYNASTIC_CUNEIFORM") (EInt 257);
  SAssign (lit "UBLOCK_HATRAN") (EInt 258);
  SAssign (lit "UBLOCK_MULTANI") (EInt 259);
  SAssign (lit "UBLOCK_OLD_HUNGARIAN") (EInt 260);
  SAssign (lit "UBLOCK_SUPPLEMENTAL_SYMBOLS_AND_PICTOGRAPHS") (EInt 261);
  SAssign (lit "UBLOCK_SUTTON_SIGNWRITING") (EInt 262);
  SAssign (lit "UBLOCK_ADLAM") (EInt 263);
  SAssign (lit "UBLOCK_BHAIKSUKI") (EInt 264);
  SAssign (lit "UBLOCK_CYRILLIC_EXTENDED_C") (EInt 265);
  SAssign (lit "UBLOCK_GLAGOLITIC_SUPPLEMENT") (EInt 266);
  SAssign (lit "UBLOCK_IDEOGRAPHIC_SYMBOLS_AND_PUNCTUATION") (EInt 267);
  SAssign (lit "UBLOCK_MARCHEN") (EInt 268);
  SAssign (lit "UBLOCK_MONGOLIAN_SUPPLEMENT") (EInt 269);
  SAssign (lit "UBLOCK_NEWA") (EInt 270);
  SAssign (lit "UBLOCK_OSAGE") (EInt 271);
  SAssign (lit "UBLOCK_TANGUT") (EInt 272);
  SAssign (lit "UBLOCK_TANGUT_COMPONENTS") (EInt 273);
  SAssign (lit "UBLOCK_CJK_UNIFIED_IDEOGRAPHS_EXTENSION_F") (EInt 274);
  SAssign (lit "UBLOCK_KANA_EXTENDED_A") (EInt 275);
  SAssign (lit "UBLOCK_MASARAM_GONDI") (EInt 276);
  SAssign (lit "UBLOCK_NUSHU") (EInt 277);
  SAssign (lit "UBLOCK_SOYOMBO") (EInt 278);
  SAssign (lit "UBLOCK_SYRIAC_SUPPLEMENT") (EInt 279);
  SAssign (lit "UBLOCK_ZANABAZAR_SQUARE") (EInt 280);
  SAssign (lit "UBLOCK_CHESS_SYMBOLS") (EInt 281);
  SAssign (lit "UBLOCK_DOGRA") (EInt 282);
  SAssign (lit "UBLOCK_GEORGIAN_EXTENDED") (EInt 283);
  SAssign (lit "UBLOCK_GUNJALA_GONDI") (EInt 284);
  SAssign (lit "UBLOCK_HANIFI_ROHINGYA") (EInt 285);
  SAssign (lit "UBLOCK_INDIC_SIYAQ_NUMBERS") (EInt 286);
  SAssign (lit "UBLOCK_MAKASAR") (EInt 287);
  SAssign (lit "UBLOCK_MAYAN_NUMERALS") (EInt 288);
  SAssign (lit "UBLOCK_MEDEFAIDRIN") (EInt 289);
  SAssign (lit "UBLOCK_OLD_SOGDIAN") (EInt 290);
  SAssign (lit "UBLOCK_SOGDIAN") (EInt 291);
  SAssign (lit "UBLOCK_EGYPTIAN_HIEROGLYPH_FORMAT_CONTROLS") (EInt 292);
  SAssign (lit "UBLOCK_ELYMAIC") (EInt 293);
  SAssign (lit "UBLOCK_NANDINAGARI") (EInt 294);
  SAssign (lit "UBLOCK_NYIAKENG_PUACHUE_HMONG") (EInt 295);
  SAssign (lit "UBLOCK_OTTOMAN_SIYAQ_NUMBERS") (EInt 296);
  SAssign (lit "UBLOCK_SMALL_KANA_EXTENSION") (EInt 297);
  SAssign (lit "UBLOCK_SYMBOLS_AND_PICTOGRAPHS_EXTENDED_A") (EInt 298);
  SAssign (lit "UBLOCK_TAMIL_SUPPLEMENT") (EInt 299);
  SAssign (lit "UBLOCK_WANCHO") (EInt 300);
  SAssign (lit "UBLOCK_CHORASMIAN") (EInt 301);
  SAssign (lit "UBLOCK_CJK_UNIFIED_IDEOGRAPHS_EXTENSION_G") (EInt 302);
  SAssign (lit "UBLOCK_DIVES_AKURU") (EInt 303);
  SAssign (lit "UBLOCK_KHITAN_SMALL_SCRIPT") (EInt 304);
  SAssign (lit "UBLOCK_LISU_SUPPLEMENT") (EInt 305);
  SAssign (lit "UBLOCK_SYMBOLS_FOR_LEGACY_COMPUTING") (EInt 306);
  SAssign (lit "UBLOCK_TANGUT_SUPPLEMENT") (EInt 307);
  SAssign (lit "UBLOCK_YEZIDI") (EInt 308);
  SAssign (lit "UBLOCK_INVALID_CODE") (ENeg (EInt 1));
  SAssign (lit "U_EA_NEUTRAL") (EInt 0);
  SAssign (lit "U_EA_AMBIGUOUS") (EInt 1);
  SAssign (lit "U_EA_HALFWIDTH") (EInt 2);
  SAssign (lit "U_EA_FULLWIDTH") (EInt 3);
  SAssign (lit "U_EA_NARROW") (EInt 4);
  SAssign (lit "U_EA_WIDE") (EInt 5);
  SAssign (lit "U_UNICODE_CHAR_NAME") (EInt 0);
  SAssign (lit "U_EXTENDED_CHAR_NAME") (EBin OpAdd (EName (lit "U_UNICODE_CHAR_NAME")) (EInt 2));
  SAssign (lit "U_CHAR_NAME_ALIAS") (EInt 3);
  SAssign (lit "U_SHORT_PROPERTY_NAME") (EInt 0);
  SAssign (lit "U_LONG_PROPERTY_NAME") (EInt 1);
  SAssign (lit "U_DT_NONE") (EInt 0);
  SAssign (lit "U_DT_CANONICAL") (EInt 1);
  SAssign (lit "U_DT_COMPAT") (EInt 2);
  SAssign (lit "U_DT_CIRCLE") (EInt 3);
  SAssign (lit "U_DT_FINAL") (EInt 4);
  SAssign (lit "U_DT_FONT") (EInt 5);
  SAssign (lit "U_DT_FRACTION") (EInt 6);
  SAssign (lit "U_DT_INITIAL") (EInt 7);
  SAssign (lit "U_DT_ISOLATED") (EInt 8);
  SAssign (lit "U_DT_MEDIAL") (EInt 9);
  SAssign (lit "U_DT_NARROW") (EInt 10);
  SAssign (lit "U_DT_NOBREAK") (EInt 11);
  SAssign (lit "U_DT_SMALL") (EInt 12);
  SAssign (lit "U_DT_SQUARE") (EInt 13);
  SAssign (lit "U_DT_SUB") (EInt 14);
  SAssign (lit "U_DT_SUPER") (EInt 15);
  SAssign (lit "U_DT_VERTICAL") (EInt 16);
  SAssign (lit "U_DT_WIDE") (EInt 17);
  SAssign (lit "U_JT_NON_JOINING") (EInt 0);
  SAssign (lit "U_JT_JOIN_CAUSING") (EInt 1);
  SAssign (lit "U_JT_DUAL_JOINING") (EInt 2);
  SAssign (lit "U_JT_LEFT_JOINING") (EInt 3);
  SAssign (lit "U_JT_RIGHT_JOINING") (EInt 4);
  SAssign (lit "U_JT_TRANSPARENT") (EInt 5);
  SAssign (lit "U_JG_NO_JOINING_GROUP") (EInt 0);
  SAssign (lit "U_JG_AIN") (EInt 1);
  SAssign (lit "U_JG_ALAPH") (EInt 2);
  SAssign (lit "U_JG_ALEF") (EInt 3);
  SAssign (lit "U_JG_BEH") (EInt 4);
  SAssign (lit "U_JG_BETH") (EInt 5);
  SAssign (lit "U_JG_DAL") (EInt 6);
  SAssign (lit "U_JG_DALATH_RISH") (EInt 7);
  SAssign (lit "U_JG_E") (EInt 8);
  SAssign (lit "U_JG_FEH") (EInt 9);
  SAssign (lit "U_JG_FINAL_SEMKATH") (EInt 10);
  SAssign (lit "U_JG_GAF") (EInt 11);
  SAssign (lit "U_JG_GAMAL") (EInt 12);
  SAssign (lit "U_JG_HAH") (EInt 13);
  SAssign (lit "U_JG_TEH_MARBUTA_GOAL") (EInt 14);
  SAssign (lit "U_JG_HAMZA_ON_HEH_GOAL") (EName (lit "U_JG_TEH_MARBUTA_GOAL"));
  SAssign (lit "U_JG_HE") (EInt 15);
  SAssign (lit "U_JG_HEH") (EInt 16);
  SAssign (lit "U_JG_HEH_GOAL") (EInt 17);
  SAssign (lit "U_JG_HETH") (EInt 18);
  SAssign (lit "U_JG_KAF") (EInt 19);
  SAssign (lit "U_JG_KAPH") (EInt 20);
  SAssign (lit "U_JG_KNOTTED_HEH") (EInt 21);
  SAssign (lit "U_JG_LAM") (EInt 22);
  SAssign (lit "U_JG_LAMADH") (EInt 23);
  SAssign (lit "U_JG_MEEM") (EInt 24);
  SAssign (lit "U_JG_MIM") (EInt 25);
  SAssign (lit "U_JG_NOON") (EInt 26);
  SAssign (lit "U_JG_NUN") (EInt 27);
  SAssign (lit "U_JG_PE") (EInt 28);
  SAssign (lit "U_JG_QAF") (EInt 29);
  SAssign (lit "U_JG_QAPH") (EInt 30);
  SAssign (lit "U_JG_REH") (EInt 31);
  SAssign (lit "U_JG_REVERSED_PE") (EInt 32);
  SAssign (lit "U_JG_SAD") (EInt 33);
  SAssign (lit "U_JG_SADHE") (EInt 34);
  SAssign (lit "U_JG_SEEN") (EInt 35);
  SAssign (lit "U_JG_SEMKATH") (EInt 36);
  SAssign (lit "U_JG_SHIN") (EInt 37);
  SAssign (lit "U_JG_SWASH_KAF") (EInt 38);
  SAssign (lit "U_JG_SYRIAC_WAW") (EInt 39);
  SAssign (lit "U_JG_TAH") (EInt 40);
  SAssign (lit "U_JG_TAW") (EInt 41);
  SAssign (lit "U_JG_TEH_MARBUTA") (EInt 42);
  SAssign (lit "U_JG_TETH") (EInt 43);
  SAssign (lit "U_JG_WAW") (EInt 44);
  SAssign (lit "U_JG_YEH") (EInt 45);
  SAssign (lit "U_JG_YEH_BARREE") (EInt 46);
  SAssign (lit "U_JG_YEH_WITH_TAIL") (EInt 47);
  SAssign (lit "U_JG_YUDH") (EInt 48);
  SAssign (lit "U_JG_YUDH_HE") (EInt 49);
  SAssign (lit "U_JG_ZAIN") (EInt 50);
  SAssign (lit "U_JG_FE") (EInt 51);
  SAssign (lit "U_JG_KHAPH") (EInt 52);
  SAssign (lit "U_JG_ZHAIN") (EInt 53);
  SAssign (lit "U_JG_BURUSHASKI_YEH_BARREE") (EInt 54);
  SAssign (lit "U_JG_FARSI_YEH") (EInt 55);
  SAssign (lit "U_JG_NYA") (EInt 56);
  SAssign (lit "U_JG_ROHINGYA_YEH") (EInt 57);
  SAssign (lit "U_JG_MANICHAEAN_ALEPH") (EInt 58);
  SAssign (lit "U_JG_MANICHAEAN_AYIN") (EInt 59);
  SAssign (lit "U_JG_MANICHAEAN_BETH") (EInt 60);
  SAssign (lit "U_JG_MANICHAEAN_DALETH") (EInt 61);
  SAssign (lit "U_JG_MANICHAEAN_DHAMEDH") (EInt 62);
  SAssign (lit "U_JG_MANICHAEAN_FIVE") (EInt 63);
  SAssign (lit "U_JG_MANICHAEAN_GIMEL") (EInt 64);
  SAssign (lit "U_JG_MANICHAEAN_HETH") (EInt 65);
  SAssign (lit "U_JG_MANICHAEAN_HUNDRED") (EInt 66);
  SAssign (lit "U_JG_MANICHAEAN_KAPH") (EInt 67);
  SAssign (lit "U_JG_MANICHAEAN_LAMEDH") (EInt 68);
  SAssign (lit "U_JG_MANICHAEAN_MEM") (EInt 69);
  SAssign (lit "U_JG_MANICHAEAN_NUN") (EInt 70);
  SAssign (lit "U_JG_MANICHAEAN_ONE") (EInt 71);
  SAssign (lit "U_JG_MANICHAEAN_PE") (EInt 72);
  SAssign (lit "U_JG_MANICHAEAN_QOPH") (EInt 73);
  SAssign (lit "U_JG_MANICHAEAN_RESH") (EInt 74);
  SAssign (lit "U_JG_MANICHAEAN_SADHE") (EInt 75);
  SAssign (lit "U_JG_MANICHAEAN_SAMEKH") (EInt 76);
  SAssign (lit "U_JG_MANICHAEAN_TAW") (EInt 77);
  SAssign (lit "U_JG_MANICHAEAN_TEN") (EInt 78);
  SAssign (lit "U_JG_MANICHAEAN_TETH") (EInt 79);
  SAssign (lit "U_JG_MANICHAEAN_THAMEDH") (EInt 80);
  SAssign (lit "U_JG_MANICHAEAN_TWENTY") (EInt 81);
  SAssign (lit "U_JG_MANICHAEAN_WAW") (EInt 82);
  SAssign (lit "U_JG_MANICHAEAN_YODH") (EInt 83);
  SAssign (lit "U_JG_MANICHAEAN_ZAYIN") (EInt 84);
  SAssign (lit "U_JG_STRAIGHT_WAW") (EInt 85);
  SAssign (lit "U_JG_AFRICAN_FEH") (EInt 86);
  SAssign (lit "U_JG_AFRICAN_NOON") (EInt 87);
  SAssign (lit "U_JG_AFRICAN_QAF") (EInt 88);
  SAssign (lit "U_JG_MALAYALAM_BHA") (EInt 89);
  SAssign (lit "U_JG_MALAYALAM_JA") (EInt 90);
  SAssign (lit "U_JG_MALAYALAM_LLA") (EInt 91);
  SAssign (lit "U_JG_MALAYALAM_LLLA") (EInt 92);
  SAssign (lit "U_JG_MALAYALAM_NGA") (EInt 93);
  SAssign (lit "U_JG_MALAYALAM_NNA") (EInt 94);
  SAssign (lit "U_JG_MALAYALAM_NNNA") (EInt 95);
  SAssign (lit "U_JG_MALAYALAM_NYA") (EInt 96);
  SAssign (lit "U_JG_MALAYALAM_RA") (EInt 97);
  SAssign (lit "U_JG_MALAYALAM_SSA") (EInt 98);
  SAssign (lit "U_JG_MALAYALAM_TTA") (EInt 99);
  SAssign (lit "U_JG_HANIFI_ROHINGYA_KINNA_YA") (EInt 100);
  SAssign (lit "U_JG_HANIFI_ROHINGYA_PA") (EInt 101);
  SAssign (lit "U_GCB_OTHER") (EInt 0);
  SAssign (lit "U_GCB_CONTROL") (EInt 1);
  SAssign (lit "U_GCB_CR") (EInt 2);
  SAssign (lit "U_GCB_EXTEND") (EInt 3);
  SAssign (lit "U_GCB_L") (EInt 4);
  SAssign (lit "U_GCB_LF") (EInt 5);
  SAssign (lit "U_GCB_LV") (EInt 6);
  SAssign (lit "U_GCB_LVT") (EInt 7);
  SAssign (lit "U_GCB_T") (EInt 8);
  SAssign (lit "U_GCB_V") (EInt 9);
  SAssign (lit "U_GCB_SPACING_MARK") (EInt 10);
  SAssign (lit "U_GCB_PREPEND") (EInt 11);
  SAssign (lit "U_GCB_REGIONAL_INDICATOR") (EInt 12);
  SAssign (lit "U_GCB_E_BASE") (EInt 13);
  SAssign (lit "U_GCB_E_BASE_GAZ") (EInt 14);
  SAssign (lit "U_GCB_E_MODIFIER") (EInt 15);
  SAssign (lit "U_GCB_GLUE_AFTER_ZWJ") (EInt 16);
  SAssign (lit "U_GCB_ZWJ") (EInt 17);
  SAssign (lit "U_WB_OTHER") (EInt 0);
  SAssign (lit "U_WB_ALETTER") (EInt 1);
  SAssign (lit "U_WB_FORMAT") (EInt 2);
  SAssign (lit "U_WB_KATAKANA") (EInt 3);
  SAssign (lit "U_WB_MIDLETTER") (EInt 4);
  SAssign (lit "U_WB_MIDNUM") (EInt 5);
  SAssign (lit "U_WB_NUMERIC") (EInt 6);
  SAssign (lit "U_WB_EXTENDNUMLET") (EInt 7);
  SAssign (lit "U_WB_CR") (EInt 8);
  SAssign (lit "U_WB_EXTEND") (EInt 9);
  SAssign (lit "U_WB_LF") (EInt 10);
  SAssign (lit "U_WB_MIDNUMLET") (EInt 11);
  SAssign (lit "U_WB_NEWLINE") (EInt 12);
  SAssign (lit "U_WB_REGIONAL_INDICATOR") (EInt 13);
  SAssign (lit "U_WB_HEBREW_LETTER") (EInt 14);
  SAssign (lit "U_WB_SINGLE_QUOTE") (EInt 15);
  SAssign (lit "U_WB_DOUBLE_QUOTE") (EInt 16);
  SAssign (lit "U_WB_E_BASE") (EInt 17);
  SAssign (lit "U_WB_E_BASE_GAZ") (EInt 18);
  SAssign (lit "U_WB_E_MODIFIER") (EInt 19);
  SAssign (lit "U_WB_GLUE_AFTER_ZWJ") (EInt 20);
  SAssign (lit "U_WB_ZWJ") (EInt 21);
  SAssign (lit "U_WB_WSEGSPACE") (EInt 22);
  SAssign (lit "U_SB_OTHER") (EInt 0);
  SAssign (lit "U_SB_ATERM") (EInt 1);
  SAssign (lit "U_SB_CLOSE") (EInt 2);
  SAssign (lit "U_SB_FORMAT") (EInt 3);
  SAssign (lit "U_SB_LOWER") (EInt 4);
  SAssign (lit "U_SB_NUMERIC") (EInt 5);
  SAssign (lit "U_SB_OLETTER") (EInt 6);
  SAssign (lit "U_SB_SEP") (EInt 7);
  SAssign (lit "U_SB_SP") (EInt 8);
  SAssign (lit "U_SB_STERM") (EInt 9);
  SAssign (lit "U_SB_UPPER") (EInt 10);
  SAssign (lit "U_SB_CR") (EInt 11);
  SAssign (lit "U_SB_EXTEND") (EInt 12);
  SAssign (lit "U_SB_LF") (EInt 13);
  SAssign (lit "U_SB_SCONTINUE") (EInt 14);
  SAssign (lit "U_LB_UNKNOWN") (EInt 0);
  SAssign (lit "U_LB_AMBIGUOUS") (EInt 1);
  SAssign (lit "U_LB_ALPHABETIC") (EInt 2);
  SAssign (lit "U_LB_BREAK_BOTH") (EInt 3);
  SAssign (lit "U_LB_BREAK_AFTER") (EInt 4);
  SAssign (lit "U_LB_BREAK_BEFORE") (EInt 5);
  SAssign (lit "U_LB_MANDATORY_BREAK") (EInt 6);
  SAssign (lit "U_LB_CONTINGENT_BREAK") (EInt 7);
  SAssign (lit "U_LB_CLOSE_PUNCTUATION") (EInt 8);
  SAssign (lit "U_LB_COMBINING_MARK") (EInt 9);
  SAssign (lit "U_LB_CARRIAGE_RETURN") (EInt 10);
  SAssign (lit "U_LB_EXCLAMATION") (EInt 11);
  SAssign (lit "U_LB_GLUE") (EInt 12);
  SAssign (lit "U_LB_HYPHEN") (EInt 13);
  SAssign (lit "U_LB_IDEOGRAPHIC") (EInt 14);
  SAssign (lit "U_LB_INSEPARABLE") (EInt 15);
  SAssign (lit "U_LB_INSEPERABLE") (EName (lit "U_LB_INSEPARABLE"));
  SAssign (lit "U_LB_INFIX_NUMERIC") (EInt 16);
  SAssign (lit "U_LB_LINE_FEED") (EInt 17);
  SAssign (lit "U_LB_NONSTARTER") (EInt 18);
  SAssign (lit "U_LB_NUMERIC") (EInt 19);
  SAssign (lit "U_LB_OPEN_PUNCTUATION") (EInt 20);
  SAssign (lit "U_LB_POSTFIX_NUMERIC") (EInt 21);
  SAssign (lit "U_LB_PREFIX_NUMERIC") (EInt 22);
  SAssign (lit "U_LB_QUOTATION") (EInt 23);
  SAssign (lit "U_LB_COMPLEX_CONTEXT") (EInt 24);
  SAssign (lit "U_LB_SURROGATE") (EInt 25);
  SAssign (lit "U_LB_SPACE") (EInt 26);
  SAssign (lit "U_LB_BREAK_SYMBOLS") (EInt 27);
  SAssign (lit "U_LB_ZWSPACE") (EInt 28);
  SAssign (lit "U_LB_NEXT_LINE") (EInt 29);
  SAssign (lit "U_LB_WORD_JOINER") (EInt 30);
  SAssign (lit "U_LB_H2") (EInt 31);
  SAssign (lit "U_LB_H3") (EInt 32);
  SAssign (lit "U_LB_JL") (EInt 33);
  SAssign (lit "U_LB_JT") (EInt 34);
  SAssign (lit "U_LB_JV") (EInt 35);
  SAssign (lit "U_LB_CLOSE_PARENTHESIS") (EInt 36);
  SAssign (lit "U_LB_CONDITIONAL_JAPANESE_STARTER") (EInt 37);
  SAssign (lit "U_LB_HEBREW_LETTER") (EInt 38);
  SAssign (lit "U_LB_REGIONAL_INDICATOR") (EInt 39);
  SAssign (lit "U_LB_E_BASE") (EInt 40);
  SAssign (lit "U_LB_E_MODIFIER") (EInt 41);
  SAssign (lit "U_LB_ZWJ") (EInt 42);
  SAssign (lit "U_NT_NONE") (EInt 0);
  SAssign (lit "U_NT_DECIMAL") (EInt 1);
  SAssign (lit "U_NT_DIGIT") (EInt 2);
  SAssign (lit "U_NT_NUMERIC") (EInt 3);
  SAssign (lit "U_HST_NOT_APPLICABLE") (EInt 0);
  SAssign (lit "U_HST_LEADING_JAMO") (EInt 1);
  SAssign (lit "U_HST_VOWEL_JAMO") (EInt 2);
  SAssign (lit "U_HST_TRAILING_JAMO") (EInt 3);
  SAssign (lit "U_HST_LV_SYLLABLE") (EInt 4);
  SAssign (lit "U_HST_LVT_SYLLABLE") (EInt 5);
  SAssign (lit "U_INPC_NA") (EInt 0);
  SAssign (lit "U_INPC_BOTTOM") (EInt 1);
  SAssign (lit "U_INPC_BOTTOM_AND_LEFT") (EInt 2);
  SAssign (lit "U_INPC_BOTTOM_AND_RIGHT") (EInt 3);
  SAssign (lit "U_INPC_LEFT") (EInt 4);
  SAssign (lit "U_INPC_LEFT_AND_RIGHT") (EInt 5);
  SAssign (lit "U_INPC_OVERSTRUCK") (EInt 6);
  SAssign (lit "U_INPC_RIGHT") (EInt 7);
  SAssign (lit "U_INPC_TOP") (EInt 8);
  SAssign (lit "U_INPC_TOP_AND_BOTTOM") (EInt 9);
  SAssign (lit "U_INPC_TOP_AND_BOTTOM_AND_RIGHT") (EInt 10);
  SAssign (lit "U_INPC_TOP_AND_LEFT") (EInt 11);
  SAssign (lit "U_INPC_TOP_AND_LEFT_AND_RIGHT") (EInt 12);
  SAssign (lit "U_INPC_TOP_AND_RIGHT") (EInt 13);
  SAssign (lit "U_INPC_VISUAL_ORDER_LEFT") (EInt 14);
  SAssign (lit "U_INPC_TOP_AND_BOTTOM_AND_LEFT") (EInt 15);
  SAssign (lit "U_INSC_OTHER") (EInt 0);
  SAssign (lit "U_INSC_AVAGRAHA") (EInt 1);
  SAssign (lit "U_INSC_BINDU") (EInt 2);
  SAssign (lit "U_INSC_BRAHMI_JOINING_NUMBER") (EInt 3);
  SAssign (lit "U_INSC_CANTILLATION_MARK") (EInt 4);
  SAssign (lit "U_INSC_CONSONANT") (EInt 5);
  SAssign (lit "U_INSC_CONSONANT_DEAD") (EInt 6);
  SAssign (lit "U_INSC_CONSONANT_FINAL") (EInt 7);
  SAssign (lit "U_INSC_CONSONANT_HEAD_LETTER") (EInt 8);
  SAssign (lit "U_INSC_CONSONANT_INITIAL_POSTFIXED") (EInt 9);
  SAssign (lit "U_INSC_CONSONANT_KILLER") (EInt 10);
  SAssign (lit "U_INSC_CONSONANT_MEDIAL") (EInt 11);
  SAssign (lit "U_INSC_CONSONANT_PLACEHOLDER") (EInt 12);
  SAssign (lit "U_INSC_CONSONANT_PRECEDING_REPHA") (EInt 13);
  SAssign (lit "U_INSC_CONSONANT_PREFIXED") (EInt 14);
  SAssign (lit "U_INSC_CONSONANT_SUBJOINED") (EInt 15);
  SAssign (lit "U_INSC_CONSONANT_SUCCEEDING_REPHA") (EInt 16);
  SAssign (lit "U_INSC_CONSONANT_WITH_STACKER") (EInt 17);
  SAssign (lit "U_INSC_GEMINATION_MARK") (EInt 18);
  SAssign (lit "U_INSC_INVISIBLE_STACKER") (EInt 19);
  SAssign (lit "U_INSC_JOINER") (EInt 20);
  SAssign (lit "U_INSC_MODIFYING_LETTER") (EInt 21);
  SAssign (lit "U_INSC_NON_JOINER") (EInt 22);
  SAssign (lit "U_INSC_NUKTA") (EInt 23);
  SAssign (lit "U_INSC_NUMBER") (EInt 24);
  SAssign (lit "U_INSC_NUMBER_JOINER") (EInt 25);
  SAssign (lit "U_INSC_PURE_KILLER") (EInt 26);
  SAssign (lit "U_INSC_REGISTER_SHIFTER") (EInt 27);
  SAssign (lit "U_INSC_SYLLABLE_MODIFIER") (EInt 28);
  SAssign (lit "U_INSC_TONE_LETTER") (EInt 29);
  SAssign (lit "U_INSC_TONE_MARK") (EInt 30);
  SAssign (lit "U_INSC_VIRAMA") (EInt 31);
  SAssign (lit "U_INSC_VISARGA") (EInt 32);
  SAssign (lit "U_INSC_VOWEL") (EInt 33);
  SAssign (lit "U_INSC_VOWEL_DEPENDENT") (EInt 34);
  SAssign (lit "U_INSC_VOWEL_INDEPENDENT") (EInt 35);
  SAssign (lit "U_VO_ROTATED") (EInt 0);
  SAssign (lit "U_VO_TRANSFORMED_ROTATED") (EInt 1);
  SAssign (lit "U_VO_TRANSFORMED_UPRIGHT") (EInt 2);
  SAssign (lit "U_VO_UPRIGHT") (EInt 3)].
Definition uchar_h_env : dict pval := Eval vm_compute in ok_env (exec uchar_h_src).
Lemma uchar_h_is : exec uchar_h_src = Ok uchar_h_env.
Proof. vm_cast_no_check (eq_refl (Ok uchar_h_env)). Qed.

(** uscript_h.py:7-211 *)
Definition uscript_h_src : list stmt := [
  SAssign (lit "USCRIPT_INVALID_CODE") (ENeg (EInt 1));
  SAssign (lit "USCRIPT_COMMON") (EInt 0);
  SAssign (lit "USCRIPT_INHERITED") (EInt 1);
  SAssign (lit "USCRIPT_ARABIC") (EInt 2);
  SAssign (lit "USCRIPT_ARMENIAN") (EInt 3);
  SAssign (lit "USCRIPT_BENGALI") (EInt 4);
  SAssign (lit "USCRIPT_BOPOMOFO") (EInt 5);
  SAssign (lit "USCRIPT_CHEROKEE") (EInt 6);
  SAssign (lit "USCRIPT_COPTIC") (EInt 7);
  SAssign (lit "USCRIPT_CYRILLIC") (EInt 8);
  SAssign (lit "USCRIPT_DESERET") (EInt 9);
  SAssign (lit "USCRIPT_DEVANAGARI") (EInt 10);
  SAssign (lit "USCRIPT_ETHIOPIC") (EInt 11);
  SAssign (lit "USCRIPT_GEORGIAN") (EInt 12);
  SAssign (lit "USCRIPT_GOTHIC") (EInt 13);
  SAssign (lit "USCRIPT_GREEK") (EInt 14);
  SAssign (lit "USCRIPT_GUJARATI") (EInt 15);
  SAssign (lit "USCRIPT_GURMUKHI") (EInt 16);
  SAssign (lit "USCRIPT_HAN") (EInt 17);
  SAssign (lit "USCRIPT_HANGUL") (EInt 18);
  SAssign (lit "USCRIPT_HEBREW") (EInt 19);
  SAssign (lit "USCRIPT_HIRAGANA") (EInt 20);
  SAssign (lit "USCRIPT_KANNADA") (EInt 21);
  SAssign (lit "USCRIPT_KATAKANA") (EInt 22);
  SAssign (lit "USCRIPT_KHMER") (EInt 23);
  SAssign (lit "USCRIPT_LAO") (EInt 24);
  SAssign (lit "USCRIPT_LATIN") (EInt 25);
  SAssign (lit "USCRIPT_MALAYALAM") (EInt 26);
  SAssign (lit "USCRIPT_MONGOLIAN") (EInt 27);
  SAssign (lit "USCRIPT_MYANMAR") (EInt 28);
  SAssign (lit "USCRIPT_OGHAM") (EInt 29);
  SAssign (lit "USCRIPT_OLD_ITALIC") (EInt 30);
  SAssign (lit "USCRIPT_ORIYA") (EInt 31);
  SAssign (lit "USCRIPT_RUNIC") (EInt 32);
  SAssign (lit "USCRIPT_SINHALA") (EInt 33);
  SAssign (lit "USCRIPT_SYRIAC") (EInt 34);
  SAssign (lit "USCRIPT_TAMIL") (EInt 35);
  SAssign (lit "USCRIPT_TELUGU") (EInt 36);
  SAssign (lit "USCRIPT_THAANA") (EInt 37);
  SAssign (lit "USCRIPT_THAI") (EInt 38);
  SAssign (lit "USCRIPT_TIBETAN") (EInt 39);
  SAssign (lit "USCRIPT_CANADIAN_ABORIGINAL") (EInt 40);
  SAssign (lit "USCRIPT_UCAS") (EName (lit "USCRIPT_CANADIAN_ABORIGINAL"));
  SAssign (lit "USCRIPT_YI") (EInt 41);
  SAssign (lit "USCRIPT_TAGALOG") (EInt 42);
  SAssign (lit "USCRIPT_HANUNOO") (EInt 43);
  SAssign (lit "USCRIPT_BUHID") (EInt 44);
  SAssign (lit "USCRIPT_TAGBANWA") (EInt 45);
  SAssign (lit "USCRIPT_BRAILLE") (EInt 46);
  SAssign (lit "USCRIPT_CYPRIOT") (EInt 47);
  SAssign (lit "USCRIPT_LIMBU") (EInt 48);
  SAssign (lit "USCRIPT_LINEAR_B") (EInt 49);
  SAssign (lit "USCRIPT_OSMANYA") (EInt 50);
  SAssign (lit "USCRIPT_SHAVIAN") (EInt 51);
  SAssign (lit "USCRIPT_TAI_LE") (EInt 52);
  SAssign (lit "USCRIPT_UGARITIC") (EInt 53);
  SAssign (lit "USCRIPT_KATAKANA_OR_HIRAGANA") (EInt 54);
  SAssign (lit "USCRIPT_BUGINESE") (EInt 55);
  SAssign (lit "USCRIPT_GLAGOLITIC") (EInt 56);
  SAssign (lit "USCRIPT_KHAROSHTHI") (EInt 57);
  SAssign (lit "USCRIPT_SYLOTI_NAGRI") (EInt 58);
  SAssign (lit "USCRIPT_NEW_TAI_LUE") (EInt 59);
  SAssign (lit "USCRIPT_TIFINAGH") (EInt 60);
  SAssign (lit "USCRIPT_OLD_PERSIAN") (EInt 61);
  SAssign (lit "USCRIPT_BALINESE") (EInt 62);
  SAssign (lit "USCRIPT_BATAK") (EInt 63);
  SAssign (lit "USCRIPT_BLISSYMBOLS") (EInt 64);
  SAssign (lit "USCRIPT_BRAHMI") (EInt 65);
  SAssign (lit "USCRIPT_CHAM") (EInt 66);
  SAssign (lit "USCRIPT_CIRTH") (EInt 67);
  SAssign (lit "USCRIPT_OLD_CHURCH_SLAVONIC_CYRILLIC") (EInt 68);
  SAssign (lit "USCRIPT_DEMOTIC_EGYPTIAN") (EInt 69);
  SAssign (lit "USCRIPT_HIERATIC_EGYPTIAN") (EInt 70);
  SAssign (lit "USCRIPT_EGYPTIAN_HIEROGLYPHS") (EInt 71);
  SAssign (lit "USCRIPT_KHUTSURI") (EInt 72);
  SAssign (lit "USCRIPT_SIMPLIFIED_HAN") (EInt 73);
  SAssign (lit "USCRIPT_TRADITIONAL_HAN") (EInt 74);
  SAssign (lit "USCRIPT_PAHAWH_HMONG") (EInt 75);
  SAssign (lit "USCRIPT_OLD_HUNGARIAN") (EInt 76);
  SAssign (lit "USCRIPT_HARAPPAN_INDUS") (EInt 77);
  SAssign (lit "USCRIPT_JAVANESE") (EInt 78);
  SAssign (lit "USCRIPT_KAYAH_LI") (EInt 79);
  SAssign (lit "USCRIPT_LATIN_FRAKTUR") (EInt 80);
  SAssign (lit "USCRIPT_LATIN_GAELIC") (EInt 81);
  SAssign (lit "USCRIPT_LEPCHA") (EInt 82);
  SAssign (lit "USCRIPT_LINEAR_A") (EInt 83);
  SAssign (lit "USCRIPT_MANDAIC") (EInt 84);
  SAssign (lit "USCRIPT_MANDAEAN") (EName (lit "USCRIPT_MANDAIC"));
  SAssign (lit "USCRIPT_MAYAN_HIEROGLYPHS") (EInt 85);
  SAssign (lit "USCRIPT_MEROITIC_HIEROGLYPHS") (EInt 86);
  SAssign (lit "USCRIPT_MEROITIC") (EName (lit "USCRIPT_MEROITIC_HIEROGLYPHS"));
  SAssign (lit "USCRIPT_NKO") (EInt 87);
  SAssign (lit "USCRIPT_ORKHON") (EInt 88);
  SAssign (lit "USCRIPT_OLD_PERMIC") (EInt 89);
  SAssign (lit "USCRIPT_PHAGS_PA") (EInt 90);
  SAssign (lit "USCRIPT_PHOENICIAN") (EInt 91);
  SAssign (lit "USCRIPT_MIAO") (EInt 92);
  SAssign (lit "USCRIPT_PHONETIC_POLLARD") (EName (lit "USCRIPT_MIAO"));
  SAssign (lit "USCRIPT_RONGORONGO") (EInt 93);
  SAssign (lit "USCRIPT_SARATI") (EInt 94);
  SAssign (lit "USCRIPT_ESTRANGELO_SYRIAC") (EInt 95);
  SAssign (lit "USCRIPT_WESTERN_SYRIAC") (EInt 96);
  SAssign (lit "USCRIPT_EASTERN_SYRIAC") (EInt 97);
  SAssign (lit "USCRIPT_TENGWAR") (EInt 98);
  SAssign (lit "USCRIPT_VAI") (EInt 99);
  SAssign (lit "USCRIPT_VISIBLE_SPEECH") (EInt 100);
  SAssign (lit "USCRIPT_CUNEIFORM") (EInt 101);
  SAssign (lit "USCRIPT_UNWRITTEN_LANGUAGES") (EInt 102);
  SAssign (lit "USCRIPT_UNKNOWN") (EInt 103);
  SAssign (lit "USCRIPT_CARIAN") (EInt 104);
  SAssign (lit "USCRIPT_JAPANESE") (EInt 105);
  SAssign (lit "USCRIPT_LANNA") (EInt 106);
  SAssign (lit "USCRIPT_LYCIAN") (EInt 107);
  SAssign (lit "USCRIPT_LYDIAN") (EInt 108);
  SAssign (lit "USCRIPT_OL_CHIKI") (EInt 109);
  SAssign (lit "USCRIPT_REJANG") (EInt 110);
  SAssign (lit "USCRIPT_SAURASHTRA") (EInt 111);
  SAssign (lit "USCRIPT_SIGN_WRITING") (EInt 112);
  SAssign (lit "USCRIPT_SUNDANESE") (EInt 113);
  SAssign (lit "USCRIPT_MOON") (EInt 114);
  SAssign (lit "USCRIPT_MEITEI_MAYEK") (EInt 115);
  SAssign (lit "USCRIPT_IMPERIAL_ARAMAIC") (EInt 116);
  SAssign (lit "USCRIPT_AVESTAN") (EInt 117);
  SAssign (lit "USCRIPT_CHAKMA") (EInt 118);
  SAssign (lit "USCRIPT_KOREAN") (EInt 119);
  SAssign (lit "USCRIPT_KAITHI") (EInt 120);
  SAssign (lit "USCRIPT_MANICHAEAN") (EInt 121);
  SAssign (lit "USCRIPT_INSCRIPTIONAL_PAHLAVI") (EInt 122);
  SAssign (lit "USCRIPT_PSALTER_PAHLAVI") (EInt 123);
  SAssign (lit "USCRIPT_BOOK_PAHLAVI") (EInt 124);
  SAssign (lit "USCRIPT_INSCRIPTIONAL_PARTHIAN") (EInt 125);
  SAssign (lit "USCRIPT_SAMARITAN") (EInt 126);
  SAssign (lit "USCRIPT_TAI_VIET") (EInt 127);
  SAssign (lit "USCRIPT_MATHEMATICAL_NOTATION") (EInt 128);
  SAssign (lit "USCRIPT_SYMBOLS") (EInt 129);
  SAssign (lit "USCRIPT_BAMUM") (EInt 130);
  SAssign (lit "USCRIPT_LISU") (EInt 131);
  SAssign (lit "USCRIPT_NAKHI_GEBA") (EInt 132);
  SAssign (lit "USCRIPT_OLD_SOUTH_ARABIAN") (EInt 133);
  SAssign (lit "USCRIPT_BASSA_VAH") (EInt 134);
  SAssign (lit "USCRIPT_DUPLOYAN") (EInt 135);
  SAssign (lit "USCRIPT_ELBASAN") (EInt 136);
  SAssign (lit "USCRIPT_GRANTHA") (EInt 137);
  SAssign (lit "USCRIPT_KPELLE") (EInt 138);
  SAssign (lit "USCRIPT_LOMA") (EInt 139);
  SAssign (lit "USCRIPT_MENDE") (EInt 140);
  SAssign (lit "USCRIPT_MEROITIC_CURSIVE") (EInt 141);
  SAssign (lit "USCRIPT_OLD_NORTH_ARABIAN") (EInt 142);
  SAssign (lit "USCRIPT_NABATAEAN") (EInt 143);
  SAssign (lit "USCRIPT_PALMYRENE") (EInt 144);
  SAssign (lit "USCRIPT_KHUDAWADI") (EInt 145);
  SAssign (lit "USCRIPT_SINDHI") (EName (lit "USCRIPT_KHUDAWADI"));
  SAssign (lit "USCRIPT_WARANG_CITI") (EInt 146);
  SAssign (lit "USCRIPT_AFAKA") (EInt 147);
  SAssign (lit "USCRIPT_JURCHEN") (EInt 148);
  SAssign (lit "USCRIPT_MRO") (EInt 149);
  SAssign (lit "USCRIPT_NUSHU") (EInt 150);
  SAssign (lit "USCRIPT_SHARADA") (EInt 151);
  SAssign (lit "USCRIPT_SORA_SOMPENG") (EInt 152);
  SAssign (lit "USCRIPT_TAKRI") (EInt 153);
  SAssign (lit "USCRIPT_TANGUT") (EInt 154);
  SAssign (lit "USCRIPT_WOLEAI") (EInt 155);
  SAssign (lit "USCRIPT_ANATOLIAN_HIEROGLYPHS") (EInt 156);
  SAssign (lit "USCRIPT_KHOJKI") (EInt 157);
  SAssign (lit "USCRIPT_TIRHUTA") (EInt 158);
  SAssign (lit "USCRIPT_CAUCASIAN_ALBANIAN") (EInt 159);
  SAssign (lit "USCRIPT_MAHAJANI") (EInt 160);
  SAssign (lit "USCRIPT_AHOM") (EInt 161);
  SAssign (lit "USCRIPT_HATRAN") (EInt 162);
  SAssign (lit "USCRIPT_MODI") (EInt 163);
  SAssign (lit "USCRIPT_MULTANI") (EInt 164);
  SAssign (lit "USCRIPT_PAU_CIN_HAU") (EInt 165);
  SAssign (lit "USCRIPT_SIDDHAM") (EInt 166);
  SAssign (lit "USCRIPT_ADLAM") (EInt 167);
  SAssign (lit "USCRIPT_BHAIKSUKI") (EInt 168);
  SAssign (lit "USCRIPT_MARCHEN") (EInt 169);
  SAssign (lit "USCRIPT_NEWA") (EInt 170);
  SAssign (lit "USCRIPT_OSAGE") (EInt 171);
  SAssign (lit "USCRIPT_HAN_WITH_BOPOMOFO") (EInt 172);
  SAssign (lit "USCRIPT_JAMO") (EInt 173);
  SAssign (lit "USCRIPT_SYMBOLS_EMOJI") (EInt 174);
  SAssign (lit "USCRIPT_MASARAM_GONDI") (EInt 175);
  SAssign (lit "USCRIPT_SOYOMBO") (EInt 176);
  SAssign (lit "USCRIPT_ZANABAZAR_SQUARE") (EInt 177);
  SAssign (lit "USCRIPT_DOGRA") (EInt 178);
  SAssign (lit "USCRIPT_GUNJALA_GONDI") (EInt 179);
  SAssign (lit "USCRIPT_MAKASAR") (EInt 180);
  SAssign (lit "USCRIPT_MEDEFAIDRIN") (EInt 181);
  SAssign (lit "USCRIPT_HANIFI_ROHINGYA") (EInt 182);
  SAssign (lit "USCRIPT_SOGDIAN") (EInt 183);
  SAssign (lit "USCRIPT_OLD_SOGDIAN") (EInt 184);
  SAssign (lit "USCRIPT_ELYMAIC") (EInt 185);
  SAssign (lit "USCRIPT_NYIAKENG_PUACHUE_HMONG") (EInt 186);
  SAssign (lit "USCRIPT_NANDINAGARI") (EInt 187);
  SAssign (lit "USCRIPT_WANCHO") (EInt 188);
  SAssign (lit "USCRIPT_CHORASMIAN") (EInt 189);
  SAssign (lit "USCRIPT_DIVES_AKURU") (EInt 190);
  SAssign (lit "USCRIPT_KHITAN_SMALL_SCRIPT") (EInt 191);
  SAssign (lit "USCRIPT_YEZIDI") (EInt 192);
  SAssign (lit "USCRIPT_USAGE_NOT_ENCODED") (EInt 0);
  SAssign (lit "USCRIPT_USAGE_UNKNOWN") (EInt 1);
  SAssign (lit "USCRIPT_USAGE_EXCLUDED") (EInt 2);
  SAssign (lit "USCRIPT_USAGE_LIMITED_USE") (EInt 3);
  SAssign (lit "USCRIPT_USAGE_ASPIRATIONAL") (EInt 4);
  SAssign (lit "USCRIPT_USAGE_RECOMMENDED") (EInt 5)].
Definition uscript_h_env : dict pval := Eval vm_compute in ok_env (exec uscript_h_src).
Lemma uscript_h_is : exec uscript_h_src = Ok uscript_h_env.
Proof. vm_cast_no_check (eq_refl (Ok uscript_h_env)). Qed.

(** ucase_h.py:7-79 *)
Definition ucase_h_src : list stmt := [
  SAssign (lit "UCASE_LOC_UNKNOWN") (EInt 0);
  SAssign (lit "UCASE_LOC_ROOT") (EInt 1);
  SAssign (lit "UCASE_LOC_TURKISH") (EInt 2);
  SAssign (lit "UCASE_LOC_LITHUANIAN") (EInt 3);
  SAssign (lit "UCASE_LOC_GREEK") (EInt 4);
  SAssign (lit "UCASE_LOC_DUTCH") (EInt 5);
  SAssign (lit "UCASE_LOC_ARMENIAN") (EInt 6);
  SAssign (lit "_STRCASECMP_OPTIONS_MASK") (EInt 65535);
  SAssign (lit "_FOLD_CASE_OPTIONS_MASK") (EInt 7);
  SAssign (lit "UCASE_MAX_STRING_LENGTH") (EInt 31);
  SAssign (lit "UCASE_DATA_NAME") (EStr (lit "ucase"));
  SAssign (lit "UCASE_DATA_TYPE") (EStr (lit "icu"));
  SAssign (lit "UCASE_FMT_0") (EInt 99);
  SAssign (lit "UCASE_FMT_1") (EInt 65);
  SAssign (lit "UCASE_FMT_2") (EInt 83);
  SAssign (lit "UCASE_FMT_3") (EInt 69);
  SAssign (lit "UCASE_IX_INDEX_TOP") (EInt 0);
  SAssign (lit "UCASE_IX_LENGTH") (EInt 1);
  SAssign (lit "UCASE_IX_TRIE_SIZE") (EInt 2);
  SAssign (lit "UCASE_IX_EXC_LENGTH") (EInt 3);
  SAssign (lit "UCASE_IX_UNFOLD_LENGTH") (EInt 4);
  SAssign (lit "UCASE_IX_MAX_FULL_LENGTH") (EInt 15);
  SAssign (lit "UCASE_IX_TOP") (EInt 16);
  SAssign (lit "UCASE_TYPE_MASK") (EInt 3);
  SAssign (lit "UCASE_NONE") (EInt 0);
  SAssign (lit "UCASE_LOWER") (EInt 1);
  SAssign (lit "UCASE_UPPER") (EInt 2);
  SAssign (lit "UCASE_TITLE") (EInt 3);
  SAssign (lit "UCASE_IGNORABLE") (EInt 4);
  SAssign (lit "UCASE_EXCEPTION") (EInt 8);
  SAssign (lit "UCASE_SENSITIVE") (EInt 16);
  SAssign (lit "UCASE_DOT_MASK") (EInt 96);
  SAssign (lit "UCASE_NO_DOT") (EInt 0);
  SAssign (lit "UCASE_SOFT_DOTTED") (EInt 32);
  SAssign (lit "UCASE_ABOVE") (EInt 64);
  SAssign (lit "UCASE_OTHER_ACCENT") (EInt 96);
  SAssign (lit "UCASE_DELTA_SHIFT") (EInt 7);
  SAssign (lit "UCASE_DELTA_MASK") (EInt 65408);
  SAssign (lit "UCASE_MAX_DELTA") (EInt 255);
  SAssign (lit "UCASE_MIN_DELTA") (EBin OpSub (ENeg (EName (lit "UCASE_MAX_DELTA"))) (EInt 1));
  SAssign (lit "UCASE_EXC_SHIFT") (EInt 4);
  SAssign (lit "UCASE_EXC_MASK") (EInt 65520);
  SAssign (lit "UCASE_MAX_EXCEPTIONS") (EBin OpAdd (EBin OpShr (EName (lit "UCASE_EXC_MASK")) (EName (lit "UCASE_EXC_SHIFT"))) (EInt 1));
  SAssign (lit "UCASE_EXC_LOWER") (EInt 0);
  SAssign (lit "UCASE_EXC_FOLD") (EInt 1);
  SAssign (lit "UCASE_EXC_UPPER") (EInt 2);
  SAssign (lit "UCASE_EXC_TITLE") (EInt 3);
  SAssign (lit "UCASE_EXC_DELTA") (EInt 4);
  SAssign (lit "UCASE_EXC_5") (EInt 5);
  SAssign (lit "UCASE_EXC_CLOSURE") (EInt 6);
  SAssign (lit "UCASE_EXC_FULL_MAPPINGS") (EInt 7);
  SAssign (lit "UCASE_EXC_ALL_SLOTS") (EInt 8);
  SAssign (lit "UCASE_EXC_DOUBLE_SLOTS") (EInt 256);
  SAssign (lit "UCASE_EXC_NO_SIMPLE_CASE_FOLDING") (EInt 512);
  SAssign (lit "UCASE_EXC_DELTA_IS_NEGATIVE") (EInt 1024);
  SAssign (lit "UCASE_EXC_SENSITIVE") (EInt 2048);
  SAssign (lit "UCASE_EXC_DOT_SHIFT") (EInt 7);
  SAssign (lit "UCASE_EXC_DOT_MASK") (EInt 12288);
  SAssign (lit "UCASE_EXC_NO_DOT") (EInt 0);
  SAssign (lit "UCASE_EXC_SOFT_DOTTED") (EInt 4096);
  SAssign (lit "UCASE_EXC_ABOVE") (EInt 8192);
  SAssign (lit "UCASE_EXC_OTHER_ACCENT") (EInt 12288);
  SAssign (lit "UCASE_EXC_CONDITIONAL_SPECIAL") (EInt 16384);
  SAssign (lit "UCASE_EXC_CONDITIONAL_FOLD") (EInt 32768);
  SAssign (lit "UCASE_FULL_LOWER") (EInt 15);
  SAssign (lit "UCASE_FULL_FOLDING") (EInt 240);
  SAssign (lit "UCASE_FULL_UPPER") (EInt 3840);
  SAssign (lit "UCASE_FULL_TITLE") (EInt 61440);
  SAssign (lit "UCASE_FULL_MAPPINGS_MAX_LENGTH") (EBin OpMul (EInt 4) (EInt 15));
  SAssign (lit "UCASE_CLOSURE_MAX_LENGTH") (EInt 15);
  SAssign (lit "UCASE_UNFOLD_ROWS") (EInt 0);
  SAssign (lit "UCASE_UNFOLD_ROW_WIDTH") (EInt 1);
  SAssign (lit "UCASE_UNFOLD_STRING_WIDTH") (EInt 2)].
Definition ucase_h_env : dict pval := Eval vm_compute in ok_env (exec ucase_h_src).
Lemma ucase_h_is : exec ucase_h_src = Ok ucase_h_env.
Proof. vm_cast_no_check (eq_refl (Ok ucase_h_env)). Qed.

(** uprops_h.py:7-124 *)
Definition uprops_h_src : list stmt := [
  SAssign (lit "UPROPS_PROPS32_INDEX") (EInt 0);
  SAssign (lit "UPROPS_EXCEPTIONS_INDEX") (EInt 1);
  SAssign (lit "UPROPS_EXCEPTIONS_TOP_INDEX") (EInt 2);
  SAssign (lit "UPROPS_ADDITIONAL_TRIE_INDEX") (EInt 3);
  SAssign (lit "UPROPS_ADDITIONAL_VECTORS_INDEX") (EInt 4);
  SAssign (lit "UPROPS_ADDITIONAL_VECTORS_COLUMNS_INDEX") (EInt 5);
  SAssign (lit "UPROPS_SCRIPT_EXTENSIONS_INDEX") (EInt 6);
  SAssign (lit "UPROPS_RESERVED_INDEX_7") (EInt 7);
  SAssign (lit "UPROPS_RESERVED_INDEX_8") (EInt 8);
  SAssign (lit "UPROPS_DATA_TOP_INDEX") (EInt 9);
  SAssign (lit "UPROPS_MAX_VALUES_INDEX") (EInt 10);
  SAssign (lit "UPROPS_MAX_VALUES_2_INDEX") (EInt 11);
  SAssign (lit "UPROPS_INDEX_COUNT") (EInt 16);
  SAssign (lit "UPROPS_NUMERIC_TYPE_VALUE_SHIFT") (EInt 6);
  SAssign (lit "UPROPS_NTV_NONE") (EInt 0);
  SAssign (lit "UPROPS_NTV_DECIMAL_START") (EInt 1);
  SAssign (lit "UPROPS_NTV_DIGIT_START") (EInt 11);
  SAssign (lit "UPROPS_NTV_NUMERIC_START") (EInt 21);
  SAssign (lit "UPROPS_NTV_FRACTION_START") (EInt 176);
  SAssign (lit "UPROPS_NTV_LARGE_START") (EInt 480);
  SAssign (lit "UPROPS_NTV_BASE60_START") (EInt 768);
  SAssign (lit "UPROPS_NTV_FRACTION20_START") (EBin OpAdd (EName (lit "UPROPS_NTV_BASE60_START")) (EInt 36));
  SAssign (lit "UPROPS_NTV_FRACTION32_START") (EBin OpAdd (EName (lit "UPROPS_NTV_FRACTION20_START")) (EInt 24));
  SAssign (lit "UPROPS_NTV_RESERVED_START") (EBin OpAdd (EName (lit "UPROPS_NTV_FRACTION32_START")) (EInt 16));
  SAssign (lit "UPROPS_NTV_MAX_SMALL_INT") (EBin OpSub (EBin OpSub (EName (lit "UPROPS_NTV_FRACTION_START")) (EName (lit "UPROPS_NTV_NUMERIC_START"))) (EInt 1));
  SAssign (lit "UPROPS_VECTOR_WORDS") (EInt 3);
  SAssign (lit "UPROPS_AGE_MASK") (EInt 4278190080);
  SAssign (lit "UPROPS_AGE_SHIFT") (EInt 24);
  SAssign (lit "UPROPS_SCRIPT_X_MASK") (EInt 15728895);
  SAssign (lit "UPROPS_SCRIPT_X_SHIFT") (EInt 22);
  SAssign (lit "UPROPS_SCRIPT_HIGH_MASK") (EInt 3145728);
  SAssign (lit "UPROPS_SCRIPT_HIGH_SHIFT") (EInt 12);
  SAssign (lit "UPROPS_MAX_SCRIPT") (EInt 1023);
  SAssign (lit "UPROPS_EA_MASK") (EInt 917504);
  SAssign (lit "UPROPS_EA_SHIFT") (EInt 17);
  SAssign (lit "UPROPS_BLOCK_MASK") (EInt 130816);
  SAssign (lit "UPROPS_BLOCK_SHIFT") (EInt 8);
  SAssign (lit "UPROPS_SCRIPT_LOW_MASK") (EInt 255);
  SAssign (lit "UPROPS_SCRIPT_X_WITH_COMMON") (EInt 4194304);
  SAssign (lit "UPROPS_SCRIPT_X_WITH_INHERITED") (EInt 8388608);
  SAssign (lit "UPROPS_SCRIPT_X_WITH_OTHER") (EInt 12582912);
  SAssign (lit "UPROPS_WHITE_SPACE") (EInt 0);
  SAssign (lit "UPROPS_DASH") (EInt 1);
  SAssign (lit "UPROPS_HYPHEN") (EInt 2);
  SAssign (lit "UPROPS_QUOTATION_MARK") (EInt 3);
  SAssign (lit "UPROPS_TERMINAL_PUNCTUATION") (EInt 4);
  SAssign (lit "UPROPS_MATH") (EInt 5);
  SAssign (lit "UPROPS_HEX_DIGIT") (EInt 6);
  SAssign (lit "UPROPS_ASCII_HEX_DIGIT") (EInt 7);
  SAssign (lit "UPROPS_ALPHABETIC") (EInt 8);
  SAssign (lit "UPROPS_IDEOGRAPHIC") (EInt 9);
  SAssign (lit "UPROPS_DIACRITIC") (EInt 10);
  SAssign (lit "UPROPS_EXTENDER") (EInt 11);
  SAssign (lit "UPROPS_NONCHARACTER_CODE_POINT") (EInt 12);
  SAssign (lit "UPROPS_GRAPHEME_EXTEND") (EInt 13);
  SAssign (lit "UPROPS_GRAPHEME_LINK") (EInt 14);
  SAssign (lit "UPROPS_IDS_BINARY_OPERATOR") (EInt 15);
  SAssign (lit "UPROPS_IDS_TRINARY_OPERATOR") (EInt 16);
  SAssign (lit "UPROPS_RADICAL") (EInt 17);
  SAssign (lit "UPROPS_UNIFIED_IDEOGRAPH") (EInt 18);
  SAssign (lit "UPROPS_DEFAULT_IGNORABLE_CODE_POINT") (EInt 19);
  SAssign (lit "UPROPS_DEPRECATED") (EInt 20);
  SAssign (lit "UPROPS_LOGICAL_ORDER_EXCEPTION") (EInt 21);
  SAssign (lit "UPROPS_XID_START") (EInt 22);
  SAssign (lit "UPROPS_XID_CONTINUE") (EInt 23);
  SAssign (lit "UPROPS_ID_START") (EInt 24);
  SAssign (lit "UPROPS_ID_CONTINUE") (EInt 25);
  SAssign (lit "UPROPS_GRAPHEME_BASE") (EInt 26);
  SAssign (lit "UPROPS_S_TERM") (EInt 27);
  SAssign (lit "UPROPS_VARIATION_SELECTOR") (EInt 28);
  SAssign (lit "UPROPS_PATTERN_SYNTAX") (EInt 29);
  SAssign (lit "UPROPS_PATTERN_WHITE_SPACE") (EInt 30);
  SAssign (lit "UPROPS_PREPENDED_CONCATENATION_MARK") (EInt 31);
  SAssign (lit "UPROPS_BINARY_1_TOP") (EInt 32);
  SAssign (lit "UPROPS_2_EXTENDED_PICTOGRAPHIC") (EInt 26);
  SAssign (lit "UPROPS_2_EMOJI_COMPONENT") (EInt 27);
  SAssign (lit "UPROPS_2_EMOJI") (EInt 28);
  SAssign (lit "UPROPS_2_EMOJI_PRESENTATION") (EInt 29);
  SAssign (lit "UPROPS_2_EMOJI_MODIFIER") (EInt 30);
  SAssign (lit "UPROPS_2_EMOJI_MODIFIER_BASE") (EInt 31);
  SAssign (lit "UPROPS_LB_MASK") (EInt 66060288);
  SAssign (lit "UPROPS_LB_SHIFT") (EInt 20);
  SAssign (lit "UPROPS_SB_MASK") (EInt 1015808);
  SAssign (lit "UPROPS_SB_SHIFT") (EInt 15);
  SAssign (lit "UPROPS_WB_MASK") (EInt 31744);
  SAssign (lit "UPROPS_WB_SHIFT") (EInt 10);
  SAssign (lit "UPROPS_GCB_MASK") (EInt 992);
  SAssign (lit "UPROPS_GCB_SHIFT") (EInt 5);
  SAssign (lit "UPROPS_DT_MASK") (EInt 31);
  SAssign (lit "TAB") (EInt 9);
  SAssign (lit "LF") (EInt 10);
  SAssign (lit "FF") (EInt 12);
  SAssign (lit "CR") (EInt 13);
  SAssign (lit "NBSP") (EInt 160);
  SAssign (lit "CGJ") (EInt 847);
  SAssign (lit "FIGURESP") (EInt 8199);
  SAssign (lit "HAIRSP") (EInt 8202);
  SAssign (lit "ZWNJ") (EInt 8204);
  SAssign (lit "ZWJ") (EInt 8205);
  SAssign (lit "RLM") (EInt 8207);
  SAssign (lit "NNBSP") (EInt 8239);
  SAssign (lit "ZWNBSP") (EInt 65279);
  SAssign (lit "UPROPS_SRC_NONE") (EInt 0);
  SAssign (lit "UPROPS_SRC_CHAR") (EInt 1);
  SAssign (lit "UPROPS_SRC_PROPSVEC") (EInt 2);
  SAssign (lit "UPROPS_SRC_NAMES") (EInt 3);
  SAssign (lit "UPROPS_SRC_CASE") (EInt 4);
  SAssign (lit "UPROPS_SRC_BIDI") (EInt 5);
  SAssign (lit "UPROPS_SRC_CHAR_AND_PROPSVEC") (EInt 6);
  SAssign (lit "UPROPS_SRC_CASE_AND_NORM") (EInt 7);
  SAssign (lit "UPROPS_SRC_NFC") (EInt 8);
  SAssign (lit "UPROPS_SRC_NFKC") (EInt 9);
  SAssign (lit "UPROPS_SRC_NFKC_CF") (EInt 10);
  SAssign (lit "UPROPS_SRC_NFC_CANON_ITER") (EInt 11);
  SAssign (lit "UPROPS_SRC_INPC") (EInt 12);
  SAssign (lit "UPROPS_SRC_INSC") (EInt 13);
  SAssign (lit "UPROPS_SRC_VO") (EInt 14);
  SAssign (lit "UPROPS_SRC_COUNT") (EInt 15)].
Definition uprops_h_env : dict pval := Eval vm_compute in ok_env (exec uprops_h_src).
Lemma uprops_h_is : exec uprops_h_src = Ok uprops_h_env.
Proof. vm_cast_no_check (eq_refl (Ok uprops_h_env)). Qed.

(** Blocks.py:9-1098 *)
Definition Blocks_src : list stmt := [
  SAssign (lit "UBLOCK_NO_BLOCK") (EInt 0);
  SAssign (lit "UBLOCK_BASIC_LATIN") (EInt 1);
  SAssign (lit "UBLOCK_LATIN_1_SUPPLEMENT") (EInt 2);
  SAssign (lit "UBLOCK_LATIN_EXTENDED_A") (EInt 3);
  SAssign (lit "UBLOCK_LATIN_EXTENDED_B") (EInt 4);
  SAssign (lit "UBLOCK_IPA_EXTENSIONS") (EInt 5);
  SAssign (lit "UBLOCK_SPACING_MODIFIER_LETTERS") (EInt 6);
  SAssign (lit "UBLOCK_COMBINING_DIACRITICAL_MARKS") (EInt 7);
  SAssign (lit "UBLOCK_GREEK") (EInt 8);
  SAssign (lit "UBLOCK_CYRILLIC") (EInt 9);
  SAssign (lit "UBLOCK_ARMENIAN") (EInt 10);
  SAssign (lit "UBLOCK_HEBREW") (EInt 11);
  SAssign (lit "UBLOCK_ARABIC") (EInt 12);
  SAssign (lit "UBLOCK_SYRIAC") (EInt 13);
  SAssign (lit "UBLOCK_THAANA") (EInt 14);
  SAssign (lit "UBLOCK_DEVANAGARI") (EInt 15);
  SAssign (lit "UBLOCK_BENGALI") (EInt 16);
  SAssign (lit "UBLOCK_GURMUKHI") (EInt 17);
  SAssign (lit "UBLOCK_GUJARATI") (EInt 18);
  SAssign (lit "UBLOCK_ORIYA") (EInt 19);
  SAssign (lit "UBLOCK_TAMIL") (EInt 20);
  SAssign (lit "UBLOCK_TELUGU") (EInt 21);
  SAssign (lit "UBLOCK_KANNADA") (EInt 22);
  SAssign (lit "UBLOCK_MALAYALAM") (EInt 23);
  SAssign (lit "UBLOCK_SINHALA") (EInt 24);
  SAssign (lit "UBLOCK_THAI") (EInt 25);
  SAssign (lit "UBLOCK_LAO") (EInt 26);
  SAssign (lit "UBLOCK_TIBETAN") (EInt 27);
  SAssign (lit "UBLOCK_MYANMAR") (EInt 28);
  SAssign (lit "UBLOCK_GEORGIAN") (EInt 29);
  SAssign (lit "UBLOCK_HANGUL_JAMO") (EInt 30);
  SAssign (lit "UBLOCK_ETHIOPIC") (EInt 31);
  SAssign (lit "UBLOCK_CHEROKEE") (EInt 32);
  SAssign (lit "UBLOCK_UNIFIED_CANADIAN_ABORIGINAL_SYLLABICS") (EInt 33);
  SAssign (lit "UBLOCK_OGHAM") (EInt 34);
  SAssign (lit "UBLOCK_RUNIC") (EInt 35);
  SAssign (lit "UBLOCK_KHMER") (EInt 36);
  SAssign (lit "UBLOCK_MONGOLIAN") (EInt 37);
  SAssign (lit "UBLOCK_LATIN_EXTENDED_ADDITIONAL") (EInt 38);
  SAssign (lit "UBLOCK_GREEK_EXTENDED") (EInt 39);
  SAssign (lit "UBLOCK_GENERAL_PUNCTUATION") (EInt 40);
  SAssign (lit "UBLOCK_SUPERSCRIPTS_AND_SUBSCRIPTS") (EInt 41);
  SAssign (lit "UBLOCK_CURRENCY_SYMBOLS") (EInt 42);
  SAssign (lit "UBLOCK_COMBINING_MARKS_FOR_SYMBOLS") (EInt 43);
  SAssign (lit "UBLOCK_LETTERLIKE_SYMBOLS") (EInt 44);
  SAssign (lit "UBLOCK_NUMBER_FORMS") (EInt 45);
  SAssign (lit "UBLOCK_ARROWS") (EInt 46);
  SAssign (lit "UBLOCK_MATHEMATICAL_OPERATORS") (EInt 47);
  SAssign (lit "UBLOCK_MISCELLANEOUS_TECHNICAL") (EInt 48);
  SAssign (lit "UBLOCK_CONTROL_PICTURES") (EInt 49);
  SAssign (lit "UBLOCK_OPTICAL_CHARACTER_RECOGNITION") (EInt 50);
  SAssign (lit "UBLOCK_ENCLOSED_ALPHANUMERICS") (EInt 51);
  SAssign (lit "UBLOCK_BOX_DRAWING") (EInt 52);
  SAssign (lit "UBLOCK_BLOCK_ELEMENTS") (EInt 53);
  SAssign (lit "UBLOCK_GEOMETRIC_SHAPES") (EInt 54);
  SAssign (lit "UBLOCK_MISCELLANEOUS_SYMBOLS") (EInt 55);
  SAssign (lit "UBLOCK_DINGBATS") (EInt 56);
  SAssign (lit "UBLOCK_BRAILLE_PATTERNS") (EInt 57);
  SAssign (lit "UBLOCK_CJK_RADICALS_SUPPLEMENT") (EInt 58);
  SAssign (lit "UBLOCK_KANGXI_RADICALS") (EInt 59);
  SAssign (lit "UBLOCK_IDEOGRAPHIC_DESCRIPTION_CHARACTERS") (EInt 60);
  SAssign (lit "UBLOCK_CJK_SYMBOLS_AND_PUNCTUATION") (EInt 61);
  SAssign (lit "UBLOCK_HIRAGANA") (EInt 62);
  SAssign (lit "UBLOCK_KATAKANA") (EInt 63);
  SAssign (lit "UBLOCK_BOPOMOFO") (EInt 64);
  SAssign (lit "UBLOCK_HANGUL_COMPATIBILITY_JAMO") (EInt 65);
  SAssign (lit "UBLOCK_KANBUN") (EInt 66);
  SAssign (lit "UBLOCK_BOPOMOFO_EXTENDED") (EInt 67);
  SAssign (lit "UBLOCK_ENCLOSED_CJK_LETTERS_AND_MONTHS") (EInt 68);
  SAssign (lit "UBLOCK_CJK_COMPATIBILITY") (EInt 69);
  SAssign (lit "UBLOCK_CJK_UNIFIED_IDEOGRAPHS_EXTENSION_A") (EInt 70);
  SAssign (lit "UBLOCK_CJK_UNIFIED_IDEOGRAPHS") (EInt 71);
  SAssign (lit "UBLOCK_YI_SYLLABLES") (EInt 72);
  SAssign (lit "UBLOCK_YI_RADICALS") (EInt 73);
  SAssign (lit "UBLOCK_HANGUL_SYLLABLES") (EInt 74);
  SAssign (lit "UBLOCK_HIGH_SURROGATES") (EInt 75);
  SAssign (lit "UBLOCK_HIGH_PRIVATE_USE_SURROGATES") (EInt 76);
  SAssign (lit "UBLOCK_LOW_SURROGATES") (EInt 77);
  SAssign (lit "UBLOCK_PRIVATE_USE_AREA") (EInt 78);
  SAssign (lit "UBLOCK_PRIVATE_USE") (ETuple [(EName (lit "UBLOCK_PRIVATE_USE_AREA"))]);
  SAssign (lit "UBLOCK_CJK_COMPATIBILITY_IDEOGRAPHS") (EInt 79);
  SAssign (lit "UBLOCK_ALPHABETIC_PRESENTATION_FORMS") (EInt 80);
  SAssign (lit "UBLOCK_ARABIC_PRESENTATION_FORMS_A") (EInt 81);
  SAssign (lit "UBLOCK_COMBINING_HALF_MARKS") (EInt 82);
  SAssign (lit "UBLOCK_CJK_COMPATIBILITY_FORMS") (EInt 83);
  SAssign (lit "UBLOCK_SMALL_FORM_VARIANTS") (EInt 84);
  SAssign (lit "UBLOCK_ARABIC_PRESENTATION_FORMS_B") (EInt 85);
  SAssign (lit "UBLOCK_SPECIALS") (EInt 86);
  SAssign (lit "UBLOCK_HALFWIDTH_AND_FULLWIDTH_FORMS") (EInt 87);
  SAssign (lit "UBLOCK_OLD_ITALIC") (EInt 88);
  SAssign (lit "UBLOCK_GOTHIC") (EInt 89);
  SAssign (lit "UBLOCK_DESERET") (EInt 90);
  SAssign (lit "UBLOCK_BYZANTINE_MUSICAL_SYMBOLS") (EInt 91);
  SAssign (lit "UBLOCK_MUSICAL_SYMBOLS") (EInt 92);
  SAssign (lit "UBLOCK_MATHEMATICAL_ALPHANUMERIC_SYMBOLS") (EInt 93);
  SAssign (lit "UBLOCK_CJK_UNIFIED_IDEOGRAPHS_EXTENSION_B") (EInt 94);
  SAssign (lit "UBLOCK_CJK_COMPATIBILITY_IDEOGRAPHS_SUPPLEMENT") (EInt 95);
  SAssign (lit "UBLOCK_TAGS") (EInt 96);
  SAssign (lit "UBLOCK_CYRILLIC_SUPPLEMENT") (EInt 97);
  SAssign (lit "UBLOCK_CYRILLIC_SUPPLEMENTARY") (ETuple [(EName (lit "UBLOCK_CYRILLIC_SUPPLEMENT"))]);
  SAssign (lit "UBLOCK_TAGALOG") (EInt 98);
  SAssign (lit "UBLOCK_HANUNOO") (EInt 99);
  SAssign (lit "UBLOCK_BUHID") (EInt 100);
  SAssign (lit "UBLOCK_TAGBANWA") (EInt 101);
  SAssign (lit "UBLOCK_MISCELLANEOUS_MATHEMATICAL_SYMBOLS_A") (EInt 102);
  SAssign (lit "UBLOCK_SUPPLEMENTAL_ARROWS_A") (EInt 103);
  SAssign (lit "UBLOCK_SUPPLEMENTAL_ARROWS_B") (EInt 104);
  SAssign (lit "UBLOCK_MISCELLANEOUS_MATHEMATICAL_SYMBOLS_B") (EInt 105);
  SAssign (lit "UBLOCK_SUPPLEMENTAL_MATHEMATICAL_OPERATORS") (EInt 106);
  SAssign (lit "UBLOCK_KATAKANA_PHONETIC_EXTENSIONS") (EInt 107);
  SAssign (lit "UBLOCK_VARIATION_SELECTORS") (EInt 108);
  SAssign (lit "UBLOCK_SUPPLEMENTARY_PRIVATE_USE_AREA_A") (EInt 109);
  SAssign (lit "UBLOCK_SUPPLEMENTARY_PRIVATE_USE_AREA_B") (EInt 110);
  SAssign (lit "UBLOCK_LIMBU") (EInt 111);
  SAssign (lit "UBLOCK_TAI_LE") (EInt 112);
  SAssign (lit "UBLOCK_KHMER_SYMBOLS") (EInt 113);
  SAssign (lit "UBLOCK_PHONETIC_EXTENSIONS") (EInt 114);
  SAssign (lit "UBLOCK_MISCELLANEOUS_SYMBOLS_AND_ARROWS") (EInt 115);
  SAssign (lit "UBLOCK_YIJING_HEXAGRAM_SYMBOLS") (EInt 116);
  SAssign (lit "UBLOCK_LINEAR_B_SYLLABARY") (EInt 117);
  SAssign (lit "UBLOCK_LINEAR_B_IDEOGRAMS") (EInt 118);
  SAssign (lit "UBLOCK_AEGEAN_NUMBERS") (EInt 119);
  SAssign (lit "UBLOCK_UGARITIC") (EInt 120);
  SAssign (lit "UBLOCK_SHAVIAN") (EInt 121);
  SAssign (lit "UBLOCK_OSMANYA") (EInt 122);
  SAssign (lit "UBLOCK_CYPRIOT_SYLLABARY") (EInt 123);
  SAssign (lit "UBLOCK_TAI_XUAN_JING_SYMBOLS") (EInt 124);
  SAssign (lit "UBLOCK_VARIATION_SELECTORS_SUPPLEMENT") (EInt 125);
  SAssign (lit "UBLOCK_ANCIENT_GREEK_MUSICAL_NOTATION") (EInt 126);
  SAssign (lit "UBLOCK_ANCIENT_GREEK_NUMBERS") (EInt 127);
  SAssign (lit "UBLOCK_ARABIC_SUPPLEMENT") (EInt 128);
  SAssign (lit "UBLOCK_BUGINESE") (EInt 129);
  SAssign (lit "UBLOCK_CJK_STROKES") (EInt 130);
  SAssign (lit "UBLOCK_COMBINING_DIACRITICAL_MARKS_SUPPLEMENT") (EInt 131);
  SAssign (lit "UBLOCK_COPTIC") (EInt 132);
  SAssign (lit "UBLOCK_ETHIOPIC_EXTENDED") (EInt 133);
  SAssign (lit "UBLOCK_ETHIOPIC_SUPPLEMENT") (EInt 134);
  SAssign (lit "UBLOCK_GEORGIAN_SUPPLEMENT") (EInt 135);
  SAssign (lit "UBLOCK_GLAGOLITIC") (EInt 136);
  SAssign (lit "UBLOCK_KHAROSHTHI") (EInt 137);
  SAssign (lit "UBLOCK_MODIFIER_TONE_LETTERS") (EInt 138);
  SAssign (lit "UBLOCK_NEW_TAI_LUE") (EInt 139);
  SAssign (lit "UBLOCK_OLD_PERSIAN") (EInt 140);
  SAssign (lit "UBLOCK_PHONETIC_EXTENSIONS_SUPPLEMENT") (EInt 141);
  SAssign (lit "UBLOCK_SUPPLEMENTAL_PUNCTUATION") (EInt 142);
  SAssign (lit "UBLOCK_SYLOTI_NAGRI") (EInt 143);
  SAssign (lit "UBLOCK_TIFINAGH") (EInt 144);
  SAssign (lit "UBLOCK_VERTICAL_FORMS") (EInt 145);
  SAssign (lit "UBLOCK_NKO") (EInt 146);
  SAssign (lit "UBLOCK_BALINESE") (EInt 147);
  SAssign (lit "UBLOCK_LATIN_EXTENDED_C") (EInt 148);
  SAssign (lit "UBLOCK_LATIN_EXTENDED_D") (EInt 149);
  SAssign (lit "UBLOCK_PHAGS_PA") (EInt 150);
  SAssign (lit "UBLOCK_PHOENICIAN") (EInt 151);
  SAssign (lit "UBLOCK_CUNEIFORM") (EInt 152);
  SAssign (lit "UBLOCK_CUNEIFORM_NUMBERS_AND_PUNCTUATION") (EInt 153);
  SAssign (lit "UBLOCK_COUNTING_ROD_NUMERALS") (EInt 154);
  SAssign (lit "UBLOCK_SUNDANESE") (EInt 155);
  SAssign (lit "UBLOCK_LEPCHA") (EInt 156);
  SAssign (lit "UBLOCK_OL_CHIKI") (EInt 157);
  SAssign (lit "UBLOCK_CYRILLIC_EXTENDED_A") (EInt 158);
  SAssign (lit "UBLOCK_VAI") (EInt 159);
  SAssign (lit "UBLOCK_CYRILLIC_EXTENDED_B") (EInt 160);
  SAssign (lit "UBLOCK_SAURASHTRA") (EInt 161);
  SAssign (lit "UBLOCK_KAYAH_LI") (EInt 162);
  SAssign (lit "UBLOCK_REJANG") (EInt 163);
  SAssign (lit "UBLOCK_CHAM") (EInt 164);
  SAssign (lit "UBLOCK_ANCIENT_SYMBOLS") (EInt 165);
  SAssign (lit "UBLOCK_PHAISTOS_DISC") (EInt 166);
  SAssign (lit "UBLOCK_LYCIAN") (EInt 167);
  SAssign (lit "UBLOCK_CARIAN") (EInt 168);
  SAssign (lit "UBLOCK_LYDIAN") (EInt 169);
  SAssign (lit "UBLOCK_MAHJONG_TILES") (EInt 170);
  SAssign (lit "UBLOCK_DOMINO_TILES") (EInt 171);
  SAssign (lit "UBLOCK_SAMARITAN") (EInt 172);
  SAssign (lit "UBLOCK_UNIFIED_CANADIAN_ABORIGINAL_SYLLABICS_EXTENDED") (EInt 173);
  SAssign (lit "UBLOCK_TAI_THAM") (EInt 174);
  SAssign (lit "UBLOCK_VEDIC_EXTENSIONS") (EInt 175);
  SAssign (lit "UBLOCK_LISU") (EInt 176);
  SAssign (lit "UBLOCK_BAMUM") (EInt 177);
  SAssign (lit "UBLOCK_COMMON_INDIC_NUMBER_FORMS") (EInt 178);
  SAssign (lit "UBLOCK_DEVANAGARI_EXTENDED") (EInt 179);
  SAssign (lit "UBLOCK_HANGUL_JAMO_EXTENDED_A") (EInt 180);
  SAssign (lit "UBLOCK_JAVANESE") (EInt 181);
  SAssign (lit "UBLOCK_MYANMAR_EXTENDED_A") (EInt 182);
  SAssign (lit "UBLOCK_TAI_VIET") (EInt 183);
  SAssign (lit "UBLOCK_MEETEI_MAYEK") (EInt 184);
  SAssign (lit "UBLOCK_HANGUL_JAMO_EXTENDED_B") (EInt 185);
  SAssign (lit "UBLOCK_IMPERIAL_ARAMAIC") (EInt 186);
  SAssign (lit "UBLOCK_OLD_SOUTH_ARABIAN") (EInt 187);
  SAssign (lit "UBLOCK_AVESTAN") (EInt 188);
  SAssign (lit "UBLOCK_INSCRIPTIONAL_PARTHIAN") (EInt 189);
  SAssign (lit "UBLOCK_INSCRIPTIONAL_PAHLAVI") (EInt 190);
  SAssign (lit "UBLOCK_OLD_TURKIC") (EInt 191);
  SAssign (lit "UBLOCK_RUMI_NUMERAL_SYMBOLS") (EInt 192);
  SAssign (lit "UBLOCK_KAITHI") (EInt 193);
  SAssign (lit "UBLOCK_EGYPTIAN_HIEROGLYPHS") (EInt 194);
  SAssign (lit "UBLOCK_ENCLOSED_ALPHANUMERIC_SUPPLEMENT") (EInt 195);
  SAssign (lit "UBLOCK_ENCLOSED_IDEOGRAPHIC_SUPPLEMENT") (EInt 196);
  SAssign (lit "UBLOCK_CJK_UNIFIED_IDEOGRAPHS_EXTENSION_C") (EInt 197);
  SAssign (lit "UBLOCK_MANDAIC") (EInt 198);
  SAssign (lit "UBLOCK_BATAK") (EInt 199);
  SAssign (lit "UBLOCK_ETHIOPIC_EXTENDED_A") (EInt 200);
  SAssign (lit "UBLOCK_BRAHMI") (EInt 201);
  SAssign (lit "UBLOCK_BAMUM_SUPPLEMENT") (EInt 202);
  SAssign (lit "UBLOCK_KANA_SUPPLEMENT") (EInt 203);
  SAssign (lit "UBLOCK_PLAYING_CARDS") (EInt 204);
  SAssign (lit "UBLOCK_MISCELLANEOUS_SYMBOLS_AND_PICTOGRAPHS") (EInt 205);
  SAssign (lit "UBLOCK_EMOTICONS") (EInt 206);
  SAssign (lit "UBLOCK_TRANSPORT_AND_MAP_SYMBOLS") (EInt 207);
  SAssign (lit "UBLOCK_ALCHEMICAL_SYMBOLS") (EInt 208);
  SAssign (lit "UBLOCK_CJK_UNIFIED_IDEOGRAPHS_EXTENSION_D") (EInt 209);
  SAssign (lit "UBLOCK_ARABIC_EXTENDED_A") (EInt 210);
  SAssign (lit "UBLOCK_ARABIC_MATHEMATICAL_ALPHABETIC_SYMBOLS") (EInt 211);
  SAssign (lit "UBLOCK_CHAKMA") (EInt 212);
  SAssign (lit "UBLOCK_MEETEI_MAYEK_EXTENSIONS") (EInt 213);
  SAssign (lit "UBLOCK_MEROITIC_CURSIVE") (EInt 214);
  SAssign (lit "UBLOCK_MEROITIC_HIEROGLYPHS") (EInt 215);
  SAssign (lit "UBLOCK_MIAO") (EInt 216);
  SAssign (lit "UBLOCK_SHARADA") (EInt 217);
  SAssign (lit "UBLOCK_SORA_SOMPENG") (EInt 218);
  SAssign (lit "UBLOCK_SUNDANESE_SUPPLEMENT") (EInt 219);
  SAssign (lit "UBLOCK_TAKRI") (EInt 220);
  SAssign (lit "UBLOCK_BASSA_VAH") (EInt 221);
  SAssign (lit "UBLOCK_CAUCASIAN_ALBANIAN") (EInt 222);
  SAssign (lit "UBLOCK_COPTIC_EPACT_NUMBERS") (EInt 223);
  SAssign (lit "UBLOCK_COMBINING_DIACRITICAL_MARKS_EXTENDED") (EInt 224);
  SAssign (lit "UBLOCK_DUPLOYAN") (EInt 225);
  SAssign (lit "UBLOCK_ELBASAN") (EInt 226);
  SAssign (lit "UBLOCK_GEOMETRIC_SHAPES_EXTENDED") (EInt 227);
  SAssign (lit "UBLOCK_GRANTHA") (EInt 228);
  SAssign (lit "UBLOCK_KHOJKI") (EInt 229);
  SAssign (lit "UBLOCK_KHUDAWADI") (EInt 230);
  SAssign (lit "UBLOCK_LATIN_EXTENDED_E") (EInt 231);
  SAssign (lit "UBLOCK_LINEAR_A") (EInt 232);
  SAssign (lit "UBLOCK_MAHAJANI") (EInt 233);
  SAssign (lit "UBLOCK_MANICHAEAN") (EInt 234);
  SAssign (lit "UBLOCK_MENDE_KIKAKUI") (EInt 235);
  SAssign (lit "UBLOCK_MODI") (EInt 236);
  SAssign (lit "UBLOCK_MRO") (EInt 237);
  SAssign (lit "UBLOCK_MYANMAR_EXTENDED_B") (EInt 238);
  SAssign (lit "UBLOCK_NABATAEAN") (EInt 239);
  SAssign (lit "UBLOCK_OLD_NORTH_ARABIAN") (EInt 240);
  SAssign (lit "UBLOCK_OLD_PERMIC") (EInt 241);
  SAssign (lit "UBLOCK_ORNAMENTAL_DINGBATS") (EInt 242);
  SAssign (lit "UBLOCK_PAHAWH_HMONG") (EInt 243);
  SAssign (lit "UBLOCK_PALMYRENE") (EInt 244);
  SAssign (lit "UBLOCK_PAU_CIN_HAU") (EInt 245);
  SAssign (lit "UBLOCK_PSALTER_PAHLAVI") (EInt 246);
  SAssign (lit "UBLOCK_SHORTHAND_FORMAT_CONTROLS") (EInt 247);
  SAssign (lit "UBLOCK_SIDDHAM") (EInt 248);
  SAssign (lit "UBLOCK_SINHALA_ARCHAIC_NUMBERS") (EInt 249);
  SAssign (lit "UBLOCK_SUPPLEMENTAL_ARROWS_C") (EInt 250);
  SAssign (lit "UBLOCK_TIRHUTA") (EInt 251);
  SAssign (lit "UBLOCK_WARANG_CITI") (EInt 252);
  SAssign (lit "UBLOCK_AHOM") (EInt 253);
  SAssign (lit "UBLOCK_ANATOLIAN_HIEROGLYPHS") (EInt 254);
  SAssign (lit "UBLOCK_CHEROKEE_SUPPLEMENT") (EInt 255);
  SAssign (lit "UBLOCK_CJK_UNIFIED_IDEOGRAPHS_EXTENSION_E") (EInt 256);
  SAssign (lit "UBLOCK_EARLY_DYNASTIC_CUNEIFORM") (EInt 257);
  SAssign (lit "UBLOCK_HATRAN") (EInt 258);
  SAssign (lit "UBLOCK_MULTANI") (EInt 259);
  SAssign (lit "UBLOCK_OLD_HUNGARIAN") (EInt 260);
  SAssign (lit "UBLOCK_SUPPLEMENTAL_SYMBOLS_AND_PICTOGRAPHS") (EInt 261);
  SAssign (lit "UBLOCK_SUTTON_SIGNWRITING") (EInt 262);
  SAssign (lit "UBLOCK_ADLAM") (EInt 263);
  SAssign (lit "UBLOCK_BHAIKSUKI") (EInt 264);
  SAssign (lit "UBLOCK_CYRILLIC_EXTENDED_C") (EInt 265);
  SAssign (lit "UBLOCK_GLAGOLITIC_SUPPLEMENT") (EInt 266);
  SAssign (lit "UBLOCK_IDEOGRAPHIC_SYMBOLS_AND_PUNCTUATION") (EInt 267);
  SAssign (lit "UBLOCK_MARCHEN") (EInt 268);
  SAssign (lit "UBLOCK_MONGOLIAN_SUPPLEMENT") (EInt 269);
  SAssign (lit "UBLOCK_NEWA") (EInt 270);
  SAssign (lit "UBLOCK_OSAGE") (EInt 271);
  SAssign (lit "UBLOCK_TANGUT") (EInt 272);
  SAssign (lit "UBLOCK_TANGUT_COMPONENTS") (EInt 273);
  SAssign (lit "UBLOCK_CJK_UNIFIED_IDEOGRAPHS_EXTENSION_F") (EInt 274);
  SAssign (lit "UBLOCK_KANA_EXTENDED_A") (EInt 275);
  SAssign (lit "UBLOCK_MASARAM_GONDI") (EInt 276);
  SAssign (lit "UBLOCK_NUSHU") (EInt 277);
  SAssign (lit "UBLOCK_SOYOMBO") (EInt 278);
  SAssign (lit "UBLOCK_SYRIAC_SUPPLEMENT") (EInt 279);
  SAssign (lit "UBLOCK_ZANABAZAR_SQUARE") (EInt 280);
  SAssign (lit "UBLOCK_CHESS_SYMBOLS") (EInt 281);
  SAssign (lit "UBLOCK_DOGRA") (EInt 282);
  SAssign (lit "UBLOCK_GEORGIAN_EXTENDED") (EInt 283);
  SAssign (lit "UBLOCK_GUNJALA_GONDI") (EInt 284);
  SAssign (lit "UBLOCK_HANIFI_ROHINGYA") (EInt 285);
  SAssign (lit "UBLOCK_INDIC_SIYAQ_NUMBERS") (EInt 286);
  SAssign (lit "UBLOCK_MAKASAR") (EInt 287);
  SAssign (lit "UBLOCK_MAYAN_NUMERALS") (EInt 288);
  SAssign (lit "UBLOCK_MEDEFAIDRIN") (EInt 289);
  SAssign (lit "UBLOCK_OLD_SOGDIAN") (EInt 290);
  SAssign (lit "UBLOCK_SOGDIAN") (EInt 291);
  SAssign (lit "UBLOCK_EGYPTIAN_HIEROGLYPH_FORMAT_CONTROLS") (EInt 292);
  SAssign (lit "UBLOCK_ELYMAIC") (EInt 293);
  SAssign (lit "UBLOCK_NANDINAGARI") (EInt 294);
  SAssign (lit "UBLOCK_NYIAKENG_PUACHUE_HMONG") (EInt 295);
  SAssign (lit "UBLOCK_OTTOMAN_SIYAQ_NUMBERS") (EInt 296);
  SAssign (lit "UBLOCK_SMALL_KANA_EXTENSION") (EInt 297);
  SAssign (lit "UBLOCK_SYMBOLS_AND_PICTOGRAPHS_EXTENDED_A") (EInt 298);
  SAssign (lit "UBLOCK_TAMIL_SUPPLEMENT") (EInt 299);
  SAssign (lit "UBLOCK_WANCHO") (EInt 300);
  SAssign (lit "UBLOCK_CHORASMIAN") (EInt 301);
  SAssign (lit "UBLOCK_CJK_UNIFIED_IDEOGRAPHS_EXTENSION_G") (EInt 302);
  SAssign (lit "UBLOCK_DIVES_AKURU") (EInt 303);
  SAssign (lit "UBLOCK_KHITAN_SMALL_SCRIPT") (EInt 304);
  SAssign (lit "UBLOCK_LISU_SUPPLEMENT") (EInt 305);
  SAssign (lit "UBLOCK_SYMBOLS_FOR_LEGACY_COMPUTING") (EInt 306);
  SAssign (lit "UBLOCK_TANGUT_SUPPLEMENT") (EInt 307);
  SAssign (lit "UBLOCK_YEZIDI") (EInt 308);
  SAssign (lit "blockNames") (EDict [
  ((EName (lit "UBLOCK_NO_BLOCK")), (EStr (lit "No Block")));
  ((EName (lit "UBLOCK_BASIC_LATIN")), (EStr (lit "ASCII")));
  ((EName (lit "UBLOCK_LATIN_1_SUPPLEMENT")), (EStr (lit "Latin 1 Sup")));
  ((EName (lit "UBLOCK_LATIN_EXTENDED_A")), (EStr (lit "Latin Ext A")));
  ((EName (lit "UBLOCK_LATIN_EXTENDED_B")), (EStr (lit "Latin Ext B")));
  ((EName (lit "UBLOCK_IPA_EXTENSIONS")), (EStr (lit "IPA Ext")));
  ((EName (lit "UBLOCK_SPACING_MODIFIER_LETTERS")), (EStr (lit "Modifier Letters")));
  ((EName (lit "UBLOCK_COMBINING_DIACRITICAL_MARKS")), (EStr (lit "Diacriticals")));
  ((EName (lit "UBLOCK_GREEK")), (EStr (lit "Greek")));
  ((EName (lit "UBLOCK_CYRILLIC")), (EStr (lit "Cyrillic")));
  ((EName (lit "UBLOCK_ARMENIAN")), (EStr (lit "Armenian")));
  ((EName (lit "UBLOCK_HEBREW")), (EStr (lit "Hebrew")));
  ((EName (lit "UBLOCK_ARABIC")), (EStr (lit "Arabic")));
  ((EName (lit "UBLOCK_SYRIAC")), (EStr (lit "Syriac")));
  ((EName (lit "UBLOCK_THAANA")), (EStr (lit "Thaana")));
  ((EName (lit "UBLOCK_DEVANAGARI")), (EStr (lit "Devanagari")));
  ((EName (lit "UBLOCK_BENGALI")), (EStr (lit "Bengali")));
  ((EName (lit "UBLOCK_GURMUKHI")), (EStr (lit "Gurmukhi")));
  ((EName (lit "UBLOCK_GUJARATI")), (EStr (lit "Gujarati")));
  ((EName (lit "UBLOCK_ORIYA")), (EStr (lit "Oriya")));
  ((EName (lit "UBLOCK_TAMIL")), (EStr (lit "Tamil")));
  ((EName (lit "UBLOCK_TELUGU")), (EStr (lit "Telugu")));
  ((EName (lit "UBLOCK_KANNADA")), (EStr (lit "Kannada")));
  ((EName (lit "UBLOCK_MALAYALAM")), (EStr (lit "Malayalam")));
  ((EName (lit "UBLOCK_SINHALA")), (EStr (lit "Sinhala")));
  ((EName (lit "UBLOCK_THAI")), (EStr (lit "Thai")));
  ((EName (lit "UBLOCK_LAO")), (EStr (lit "Lao")));
  ((EName (lit "UBLOCK_TIBETAN")), (EStr (lit "Tibetan")));
  ((EName (lit "UBLOCK_MYANMAR")), (EStr (lit "Myanmar")));
  ((EName (lit "UBLOCK_GEORGIAN")), (EStr (lit "Georgian")));
  ((EName (lit "UBLOCK_HANGUL_JAMO")), (EStr (lit "Jamo")));
  ((EName (lit "UBLOCK_ETHIOPIC")), (EStr (lit "Ethiopic")));
  ((EName (lit "UBLOCK_CHEROKEE")), (EStr (lit "Cherokee")));
  ((EName (lit "UBLOCK_UNIFIED_CANADIAN_ABORIGINAL_SYLLABICS")), (EStr (lit "UCAS")));
  ((EName (lit "UBLOCK_OGHAM")), (EStr (lit "Ogham")));
  ((EName (lit "UBLOCK_RUNIC")), (EStr (lit "Runic")));
  ((EName (lit "UBLOCK_KHMER")), (EStr (lit "Khmer")));
  ((EName (lit "UBLOCK_MONGOLIAN")), (EStr (lit "Mongolian")));
  ((EName (lit "UBLOCK_LATIN_EXTENDED_ADDITIONAL")), (EStr (lit "Latin Ext Additional")));
  ((EName (lit "UBLOCK_GREEK_EXTENDED")), (EStr (lit "Greek Ext")));
  ((EName (lit "UBLOCK_GENERAL_PUNCTUATION")), (EStr (lit "Punctuation")));
  ((EName (lit "UBLOCK_SUPERSCRIPTS_AND_SUBSCRIPTS")), (EStr (lit "Super And Sub")));
  ((EName (lit "UBLOCK_CURRENCY_SYMBOLS")), (EStr (lit "Currency Symbols")));
  ((EName (lit "UBLOCK_COMBINING_MARKS_FOR_SYMBOLS")), (EStr (lit "Diacriticals For Symbols")));
  ((EName (lit "UBLOCK_LETTERLIKE_SYMBOLS")), (EStr (lit "Letterlike Symbols")));
  ((EName (lit "UBLOCK_NUMBER_FORMS")), (EStr (lit "Number Forms")));
  ((EName (lit "UBLOCK_ARROWS")), (EStr (lit "Arrows")));
  ((EName (lit "UBLOCK_MATHEMATICAL_OPERATORS")), (EStr (lit "Math Operators")));
  ((EName (lit "UBLOCK_MISCELLANEOUS_TECHNICAL")), (EStr (lit "Misc Technical")));
  ((EName (lit "UBLOCK_CONTROL_PICTURES")), (EStr (lit "Control Pictures")));
  ((EName (lit "UBLOCK_OPTICAL_CHARACTER_RECOGNITION")), (EStr (lit "OCR")));
  ((EName (lit "UBLOCK_ENCLOSED_ALPHANUMERICS")), (EStr (lit "Enclosed Alphanum")));
  ((EName (lit "UBLOCK_BOX_DRAWING")), (EStr (lit "Box Drawing")));
  ((EName (lit "UBLOCK_BLOCK_ELEMENTS")), (EStr (lit "Block Elements")));
  ((EName (lit "UBLOCK_GEOMETRIC_SHAPES")), (EStr (lit "Geometric Shapes")));
  ((EName (lit "UBLOCK_MISCELLANEOUS_SYMBOLS")), (EStr (lit "Misc Symbols")));
  ((EName (lit "UBLOCK_DINGBATS")), (EStr (lit "Dingbats")));
  ((EName (lit "UBLOCK_BRAILLE_PATTERNS")), (EStr (lit "Braille")));
  ((EName (lit "UBLOCK_CJK_RADICALS_SUPPLEMENT")), (EStr (lit "CJK Radicals Sup")));
  ((EName (lit "UBLOCK_KANGXI_RADICALS")), (EStr (lit "Kangxi")));
  ((EName (lit "UBLOCK_IDEOGRAPHIC_DESCRIPTION_CHARACTERS")), (EStr (lit "IDC")));
  ((EName (lit "UBLOCK_CJK_SYMBOLS_AND_PUNCTUATION")), (EStr (lit "CJK Symbols")));
  ((EName (lit "UBLOCK_HIRAGANA")), (EStr (lit "Hiragana")));
  ((EName (lit "UBLOCK_KATAKANA")), (EStr (lit "Katakana")));
  ((EName (lit "UBLOCK_BOPOMOFO")), (EStr (lit "Bopomofo")));
  ((EName (lit "UBLOCK_HANGUL_COMPATIBILITY_JAMO")), (EStr (lit "Compat Jamo")));
  ((EName (lit "UBLOCK_KANBUN")), (EStr (lit "Kanbun")));
  ((EName (lit "UBLOCK_BOPOMOFO_EXTENDED")), (EStr (lit "Bopomofo Ext")));
  ((EName (lit "UBLOCK_ENCLOSED_CJK_LETTERS_AND_MONTHS")), (EStr (lit "Enclosed CJK")));
  ((EName (lit "UBLOCK_CJK_COMPATIBILITY")), (EStr (lit "CJK Compat")));
  ((EName (lit "UBLOCK_CJK_UNIFIED_IDEOGRAPHS_EXTENSION_A")), (EStr (lit "CJK Ext A")));
  ((EName (lit "UBLOCK_CJK_UNIFIED_IDEOGRAPHS")), (EStr (lit "CJK")));
  ((EName (lit "UBLOCK_YI_SYLLABLES")), (EStr (lit "Yi Syllables")));
  ((EName (lit "UBLOCK_YI_RADICALS")), (EStr (lit "Yi Radicals")));
  ((EName (lit "UBLOCK_HANGUL_SYLLABLES")), (EStr (lit "Hangul")));
  ((EName (lit "UBLOCK_HIGH_SURROGATES")), (EStr (lit "High Surrogates")));
  ((EName (lit "UBLOCK_HIGH_PRIVATE_USE_SURROGATES")), (EStr (lit "High Private Use Surrogates")));
  ((EName (lit "UBLOCK_LOW_SURROGATES")), (EStr (lit "Low Surrogates")));
  ((EName (lit "UBLOCK_PRIVATE_USE_AREA")), (EStr (lit "Private Use Area")));
  ((EName (lit "UBLOCK_CJK_COMPATIBILITY_IDEOGRAPHS")), (EStr (lit "CJK Compat Ideographs")));
  ((EName (lit "UBLOCK_ALPHABETIC_PRESENTATION_FORMS")), (EStr (lit "Alphabetic PF")));
  ((EName (lit "UBLOCK_ARABIC_PRESENTATION_FORMS_A")), (EStr (lit "Arabic PF A")));
  ((EName (lit "UBLOCK_COMBINING_HALF_MARKS")), (EStr (lit "Half Marks")));
  ((EName (lit "UBLOCK_CJK_COMPATIBILITY_FORMS")), (EStr (lit "CJK Compat Forms")));
  ((EName (lit "UBLOCK_SMALL_FORM_VARIANTS")), (EStr (lit "Small Forms")));
  ((EName (lit "UBLOCK_ARABIC_PRESENTATION_FORMS_B")), (EStr (lit "Arabic PF B")));
  ((EName (lit "UBLOCK_SPECIALS")), (EStr (lit "Specials")));
  ((EName (lit "UBLOCK_HALFWIDTH_AND_FULLWIDTH_FORMS")), (EStr (lit "Half And Full Forms")));
  ((EName (lit "UBLOCK_OLD_ITALIC")), (EStr (lit "Old Italic")));
  ((EName (lit "UBLOCK_GOTHIC")), (EStr (lit "Gothic")));
  ((EName (lit "UBLOCK_DESERET")), (EStr (lit "Deseret")));
  ((EName (lit "UBLOCK_BYZANTINE_MUSICAL_SYMBOLS")), (EStr (lit "Byzantine Music")));
  ((EName (lit "UBLOCK_MUSICAL_SYMBOLS")), (EStr (lit "Music")));
  ((EName (lit "UBLOCK_MATHEMATICAL_ALPHANUMERIC_SYMBOLS")), (EStr (lit "Math Alphanum")));
  ((EName (lit "UBLOCK_CJK_UNIFIED_IDEOGRAPHS_EXTENSION_B")), (EStr (lit "CJK Ext B")));
  ((EName (lit "UBLOCK_CJK_COMPATIBILITY_IDEOGRAPHS_SUPPLEMENT")), (EStr (lit "CJK Compat Ideographs Sup")));
  ((EName (lit "UBLOCK_TAGS")), (EStr (lit "Tags")));
  ((EName (lit "UBLOCK_CYRILLIC_SUPPLEMENT")), (EStr (lit "Cyrillic Sup")));
  ((EName (lit "UBLOCK_TAGALOG")), (EStr (lit "Tagalog")));
  ((EName (lit "UBLOCK_HANUNOO")), (EStr (lit "Hanunoo")));
  ((EName (lit "UBLOCK_BUHID")), (EStr (lit "Buhid")));
  ((EName (lit "UBLOCK_TAGBANWA")), (EStr (lit "Tagbanwa")));
  ((EName (lit "UBLOCK_MISCELLANEOUS_MATHEMATICAL_SYMBOLS_A")), (EStr (lit "Misc Math Symbols A")));
  ((EName (lit "UBLOCK_SUPPLEMENTAL_ARROWS_A")), (EStr (lit "Sup Arrows A")));
  ((EName (lit "UBLOCK_SUPPLEMENTAL_ARROWS_B")), (EStr (lit "Sup Arrows B")));
  ((EName (lit "UBLOCK_MISCELLANEOUS_MATHEMATICAL_SYMBOLS_B")), (EStr (lit "Misc Math Symbols B")));
  ((EName (lit "UBLOCK_SUPPLEMENTAL_MATHEMATICAL_OPERATORS")), (EStr (lit "Sup Math Operators")));
  ((EName (lit "UBLOCK_KATAKANA_PHONETIC_EXTENSIONS")), (EStr (lit "Katakana Ext")));
  ((EName (lit "UBLOCK_VARIATION_SELECTORS")), (EStr (lit "VS")));
  ((EName (lit "UBLOCK_SUPPLEMENTARY_PRIVATE_USE_AREA_A")), (EStr (lit "Supary Private Use Area A")));
  ((EName (lit "UBLOCK_SUPPLEMENTARY_PRIVATE_USE_AREA_B")), (EStr (lit "Supary Private Use Area B")));
  ((EName (lit "UBLOCK_LIMBU")), (EStr (lit "Limbu")));
  ((EName (lit "UBLOCK_TAI_LE")), (EStr (lit "Tai Le")));
  ((EName (lit "UBLOCK_KHMER_SYMBOLS")), (EStr (lit "Khmer Symbols")));
  ((EName (lit "UBLOCK_PHONETIC_EXTENSIONS")), (EStr (lit "Phonetic Ext")));
  ((EName (lit "UBLOCK_MISCELLANEOUS_SYMBOLS_AND_ARROWS")), (EStr (lit "Misc Arrows")));
  ((EName (lit "UBLOCK_YIJING_HEXAGRAM_SYMBOLS")), (EStr (lit "Yijing")));
  ((EName (lit "UBLOCK_LINEAR_B_SYLLABARY")), (EStr (lit "Linear B Syllabary")));
  ((EName (lit "UBLOCK_LINEAR_B_IDEOGRAMS")), (EStr (lit "Linear B Ideograms")));
  ((EName (lit "UBLOCK_AEGEAN_NUMBERS")), (EStr (lit "Aegean Numbers")));
  ((EName (lit "UBLOCK_UGARITIC")), (EStr (lit "Ugaritic")));
  ((EName (lit "UBLOCK_SHAVIAN")), (EStr (lit "Shavian")));
  ((EName (lit "UBLOCK_OSMANYA")), (EStr (lit "Osmanya")));
  ((EName (lit "UBLOCK_CYPRIOT_SYLLABARY")), (EStr (lit "Cypriot Syllabary")));
  ((EName (lit "UBLOCK_TAI_XUAN_JING_SYMBOLS")), (EStr (lit "Tai Xuan Jing")));
  ((EName (lit "UBLOCK_VARIATION_SELECTORS_SUPPLEMENT")), (EStr (lit "VS Sup")));
  ((EName (lit "UBLOCK_ANCIENT_GREEK_MUSICAL_NOTATION")), (EStr (lit "Ancient Greek Music")));
  ((EName (lit "UBLOCK_ANCIENT_GREEK_NUMBERS")), (EStr (lit "Ancient Greek Numbers")));
  ((EName (lit "UBLOCK_ARABIC_SUPPLEMENT")), (EStr (lit "Arabic Sup")));
  ((EName (lit "UBLOCK_BUGINESE")), (EStr (lit "Buginese")));
  ((EName (lit "UBLOCK_CJK_STROKES")), (EStr (lit "CJK Strokes")));
  ((EName (lit "UBLOCK_COMBINING_DIACRITICAL_MARKS_SUPPLEMENT")), (EStr (lit "Diacriticals Sup")));
  ((EName (lit "UBLOCK_COPTIC")), (EStr (lit "Coptic")));
  ((EName (lit "UBLOCK_ETHIOPIC_EXTENDED")), (EStr (lit "Ethiopic Ext")));
  ((EName (lit "UBLOCK_ETHIOPIC_SUPPLEMENT")), (EStr (lit "Ethiopic Sup")));
  ((EName (lit "UBLOCK_GEORGIAN_SUPPLEMENT")), (EStr (lit "Georgian Sup")));
  ((EName (lit "UBLOCK_GLAGOLITIC")), (EStr (lit "Glagolitic")));
  ((EName (lit "UBLOCK_KHAROSHTHI")), (EStr (lit "Kharoshthi")));
  ((EName (lit "UBLOCK_MODIFIER_TONE_LETTERS")), (EStr (lit "Modifier Tone Letters")));
  ((EName (lit "UBLOCK_NEW_TAI_LUE")), (EStr (lit "New Tai Lue")));
  ((EName (lit "UBLOCK_OLD_PERSIAN")), (EStr (lit "Old Persian")));
  ((EName (lit "UBLOCK_PHONETIC_EXTENSIONS_SUPPLEMENT")), (EStr (lit "Phonetic Ext Sup")));
  ((EName (lit "UBLOCK_SUPPLEMENTAL_PUNCTUATION")), (EStr (lit "Sup Punctuation")));
  ((EName (lit "UBLOCK_SYLOTI_NAGRI")), (EStr (lit "Syloti Nagri")));
  ((EName (lit "UBLOCK_TIFINAGH")), (EStr (lit "Tifinagh")));
  ((EName (lit "UBLOCK_VERTICAL_FORMS")), (EStr (lit "Vertical Forms")));
  ((EName (lit "UBLOCK_NKO")), (EStr (lit "NKo")));
  ((EName (lit "UBLOCK_BALINESE")), (EStr (lit "Balinese")));
  ((EName (lit "UBLOCK_LATIN_EXTENDED_C")), (EStr (lit "Latin Ext C")));
  ((EName (lit "UBLOCK_LATIN_EXTENDED_D")), (EStr (lit "Latin Ext D")));
  ((EName (lit "UBLOCK_PHAGS_PA")), (EStr (lit "Phags Pa")));
  ((EName (lit "UBLOCK_PHOENICIAN")), (EStr (lit "Phoenician")));
  ((EName (lit "UBLOCK_CUNEIFORM")), (EStr (lit "Cuneiform")));
  ((EName (lit "UBLOCK_CUNEIFORM_NUMBERS_AND_PUNCTUATION")), (EStr (lit "Cuneiform Numbers")));
  ((EName (lit "UBLOCK_COUNTING_ROD_NUMERALS")), (EStr (lit "Counting Rod")));
  ((EName (lit "UBLOCK_SUNDANESE")), (EStr (lit "Sundanese")));
  ((EName (lit "UBLOCK_LEPCHA")), (EStr (lit "Lepcha")));
  ((EName (lit "UBLOCK_OL_CHIKI")), (EStr (lit "Ol Chiki")));
  ((EName (lit "UBLOCK_CYRILLIC_EXTENDED_A")), (EStr (lit "Cyrillic Ext A")));
  ((EName (lit "UBLOCK_VAI")), (EStr (lit "Vai")));
  ((EName (lit "UBLOCK_CYRILLIC_EXTENDED_B")), (EStr (lit "Cyrillic Ext B")));
  ((EName (lit "UBLOCK_SAURASHTRA")), (EStr (lit "Saurashtra")));
  ((EName (lit "UBLOCK_KAYAH_LI")), (EStr (lit "Kayah Li")));
  ((EName (lit "UBLOCK_REJANG")), (EStr (lit "Rejang")));
  ((EName (lit "UBLOCK_CHAM")), (EStr (lit "Cham")));
  ((EName (lit "UBLOCK_ANCIENT_SYMBOLS")), (EStr (lit "Ancient Symbols")));
  ((EName (lit "UBLOCK_PHAISTOS_DISC")), (EStr (lit "Phaistos")));
  ((EName (lit "UBLOCK_LYCIAN")), (EStr (lit "Lycian")));
  ((EName (lit "UBLOCK_CARIAN")), (EStr (lit "Carian")));
  ((EName (lit "UBLOCK_LYDIAN")), (EStr (lit "Lydian")));
  ((EName (lit "UBLOCK_MAHJONG_TILES")), (EStr (lit "Mahjong")));
  ((EName (lit "UBLOCK_DOMINO_TILES")), (EStr (lit "Domino")));
  ((EName (lit "UBLOCK_SAMARITAN")), (EStr (lit "Samaritan")));
  ((EName (lit "UBLOCK_UNIFIED_CANADIAN_ABORIGINAL_SYLLABICS_EXTENDED")), (EStr (lit "UCAS Ext")));
  ((EName (lit "UBLOCK_TAI_THAM")), (EStr (lit "Tai Tham")));
  ((EName (lit "UBLOCK_VEDIC_EXTENSIONS")), (EStr (lit "Vedic Ext")));
  ((EName (lit "UBLOCK_LISU")), (EStr (lit "Lisu")));
  ((EName (lit "UBLOCK_BAMUM")), (EStr (lit "Bamum")));
  ((EName (lit "UBLOCK_COMMON_INDIC_NUMBER_FORMS")), (EStr (lit "Indic Number Forms")));
  ((EName (lit "UBLOCK_DEVANAGARI_EXTENDED")), (EStr (lit "Devanagari Ext")));
  ((EName (lit "UBLOCK_HANGUL_JAMO_EXTENDED_A")), (EStr (lit "Jamo Ext A")));
  ((EName (lit "UBLOCK_JAVANESE")), (EStr (lit "Javanese")));
  ((EName (lit "UBLOCK_MYANMAR_EXTENDED_A")), (EStr (lit "Myanmar Ext A")));
  ((EName (lit "UBLOCK_TAI_VIET")), (EStr (lit "Tai Viet")));
  ((EName (lit "UBLOCK_MEETEI_MAYEK")), (EStr (lit "Meetei Mayek")));
  ((EName (lit "UBLOCK_HANGUL_JAMO_EXTENDED_B")), (EStr (lit "Jamo Ext B")));
  ((EName (lit "UBLOCK_IMPERIAL_ARAMAIC")), (EStr (lit "Imperial Aramaic")));
  ((EName (lit "UBLOCK_OLD_SOUTH_ARABIAN")), (EStr (lit "Old South Arabian")));
  ((EName (lit "UBLOCK_AVESTAN")), (EStr (lit "Avestan")));
  ((EName (lit "UBLOCK_INSCRIPTIONAL_PARTHIAN")), (EStr (lit "Inscriptional Parthian")));
  ((EName (lit "UBLOCK_INSCRIPTIONAL_PAHLAVI")), (EStr (lit "Inscriptional Pahlavi")));
  ((EName (lit "UBLOCK_OLD_TURKIC")), (EStr (lit "Old Turkic")));
  ((EName (lit "UBLOCK_RUMI_NUMERAL_SYMBOLS")), (EStr (lit "Rumi")));
  ((EName (lit "UBLOCK_KAITHI")), (EStr (lit "Kaithi")));
  ((EName (lit "UBLOCK_EGYPTIAN_HIEROGLYPHS")), (EStr (lit "Egyptian Hieroglyphs")));
  ((EName (lit "UBLOCK_ENCLOSED_ALPHANUMERIC_SUPPLEMENT")), (EStr (lit "Enclosed Alphanum Sup")));
  ((EName (lit "UBLOCK_ENCLOSED_IDEOGRAPHIC_SUPPLEMENT")), (EStr (lit "Enclosed Ideographic Sup")));
  ((EName (lit "UBLOCK_CJK_UNIFIED_IDEOGRAPHS_EXTENSION_C")), (EStr (lit "CJK Ext C")));
  ((EName (lit "UBLOCK_MANDAIC")), (EStr (lit "Mandaic")));
  ((EName (lit "UBLOCK_BATAK")), (EStr (lit "Batak")));
  ((EName (lit "UBLOCK_ETHIOPIC_EXTENDED_A")), (EStr (lit "Ethiopic Ext A")));
  ((EName (lit "UBLOCK_BRAHMI")), (EStr (lit "Brahmi")));
  ((EName (lit "UBLOCK_BAMUM_SUPPLEMENT")), (EStr (lit "Bamum Sup")));
  ((EName (lit "UBLOCK_KANA_SUPPLEMENT")), (EStr (lit "Kana Sup")));
  ((EName (lit "UBLOCK_PLAYING_CARDS")), (EStr (lit "Playing Cards")));
  ((EName (lit "UBLOCK_MISCELLANEOUS_SYMBOLS_AND_PICTOGRAPHS")), (EStr (lit "Misc Pictographs")));
  ((EName (lit "UBLOCK_EMOTICONS")), (EStr (lit "Emoticons")));
  ((EName (lit "UBLOCK_TRANSPORT_AND_MAP_SYMBOLS")), (EStr (lit "Transport And Map")));
  ((EName (lit "UBLOCK_ALCHEMICAL_SYMBOLS")), (EStr (lit "Alchemical")));
  ((EName (lit "UBLOCK_CJK_UNIFIED_IDEOGRAPHS_EXTENSION_D")), (EStr (lit "CJK Ext D")));
  ((EName (lit "UBLOCK_ARABIC_EXTENDED_A")), (EStr (lit "Arabic Ext A")));
  ((EName (lit "UBLOCK_ARABIC_MATHEMATICAL_ALPHABETIC_SYMBOLS")), (EStr (lit "Arabic Math")));
  ((EName (lit "UBLOCK_CHAKMA")), (EStr (lit "Chakma")));
  ((EName (lit "UBLOCK_MEETEI_MAYEK_EXTENSIONS")), (EStr (lit "Meetei Mayek Ext")));
  ((EName (lit "UBLOCK_MEROITIC_CURSIVE")), (EStr (lit "Meroitic Cursive")));
  ((EName (lit "UBLOCK_MEROITIC_HIEROGLYPHS")), (EStr (lit "Meroitic Hieroglyphs")));
  ((EName (lit "UBLOCK_MIAO")), (EStr (lit "Miao")));
  ((EName (lit "UBLOCK_SHARADA")), (EStr (lit "Sharada")));
  ((EName (lit "UBLOCK_SORA_SOMPENG")), (EStr (lit "Sora Sompeng")));
  ((EName (lit "UBLOCK_SUNDANESE_SUPPLEMENT")), (EStr (lit "Sundanese Sup")));
  ((EName (lit "UBLOCK_TAKRI")), (EStr (lit "Takri")));
  ((EName (lit "UBLOCK_BASSA_VAH")), (EStr (lit "Bassa Vah")));
  ((EName (lit "UBLOCK_CAUCASIAN_ALBANIAN")), (EStr (lit "Caucasian Albanian")));
  ((EName (lit "UBLOCK_COPTIC_EPACT_NUMBERS")), (EStr (lit "Coptic Epact Numbers")));
  ((EName (lit "UBLOCK_COMBINING_DIACRITICAL_MARKS_EXTENDED")), (EStr (lit "Diacriticals Ext")));
  ((EName (lit "UBLOCK_DUPLOYAN")), (EStr (lit "Duployan")));
  ((EName (lit "UBLOCK_ELBASAN")), (EStr (lit "Elbasan")));
  ((EName (lit "UBLOCK_GEOMETRIC_SHAPES_EXTENDED")), (EStr (lit "Geometric Shapes Ext")));
  ((EName (lit "UBLOCK_GRANTHA")), (EStr (lit "Grantha")));
  ((EName (lit "UBLOCK_KHOJKI")), (EStr (lit "Khojki")));
  ((EName (lit "UBLOCK_KHUDAWADI")), (EStr (lit "Khudawadi")));
  ((EName (lit "UBLOCK_LATIN_EXTENDED_E")), (EStr (lit "Latin Ext E")));
  ((EName (lit "UBLOCK_LINEAR_A")), (EStr (lit "Linear A")));
  ((EName (lit "UBLOCK_MAHAJANI")), (EStr (lit "Mahajani")));
  ((EName (lit "UBLOCK_MANICHAEAN")), (EStr (lit "Manichaean")));
  ((EName (lit "UBLOCK_MENDE_KIKAKUI")), (EStr (lit "Mende Kikakui")));
  ((EName (lit "UBLOCK_MODI")), (EStr (lit "Modi")));
  ((EName (lit "UBLOCK_MRO")), (EStr (lit "Mro")));
  ((EName (lit "UBLOCK_MYANMAR_EXTENDED_B")), (EStr (lit "Myanmar Ext B")));
  ((EName (lit "UBLOCK_NABATAEAN")), (EStr (lit "Nabataean")));
  ((EName (lit "UBLOCK_OLD_NORTH_ARABIAN")), (EStr (lit "Old North Arabian")));
  ((EName (lit "UBLOCK_OLD_PERMIC")), (EStr (lit "Old Permic")));
  ((EName (lit "UBLOCK_ORNAMENTAL_DINGBATS")), (EStr (lit "Ornamental Dingbats")));
  ((EName (lit "UBLOCK_PAHAWH_HMONG")), (EStr (lit "Pahawh Hmong")));
  ((EName (lit "UBLOCK_PALMYRENE")), (EStr (lit "Palmyrene")));
  ((EName (lit "UBLOCK_PAU_CIN_HAU")), (EStr (lit "Pau Cin Hau")));
  ((EName (lit "UBLOCK_PSALTER_PAHLAVI")), (EStr (lit "Psalter Pahlavi")));
  ((EName (lit "UBLOCK_SHORTHAND_FORMAT_CONTROLS")), (EStr (lit "Shorthand Format Controls")));
  ((EName (lit "UBLOCK_SIDDHAM")), (EStr (lit "Siddham")));
  ((EName (lit "UBLOCK_SINHALA_ARCHAIC_NUMBERS")), (EStr (lit "Sinhala Archaic Numbers")));
  ((EName (lit "UBLOCK_SUPPLEMENTAL_ARROWS_C")), (EStr (lit "Sup Arrows C")));
  ((EName (lit "UBLOCK_TIRHUTA")), (EStr (lit "Tirhuta")));
  ((EName (lit "UBLOCK_WARANG_CITI")), (EStr (lit "Warang Citi")));
  ((EName (lit "UBLOCK_AHOM")), (EStr (lit "Ahom")));
  ((EName (lit "UBLOCK_ANATOLIAN_HIEROGLYPHS")), (EStr (lit "Anatolian Hieroglyphs")));
  ((EName (lit "UBLOCK_CHEROKEE_SUPPLEMENT")), (EStr (lit "Cherokee Sup")));
  ((EName (lit "UBLOCK_CJK_UNIFIED_IDEOGRAPHS_EXTENSION_E")), (EStr (lit "CJK Ext E")));
  ((EName (lit "UBLOCK_EARLY_DYNASTIC_CUNEIFORM")), (EStr (lit "Early Dynastic Cuneiform")));
  ((EName (lit "UBLOCK_HATRAN")), (EStr (lit "Hatran")));
  ((EName (lit "UBLOCK_MULTANI")), (EStr (lit "Multani")));
  ((EName (lit "UBLOCK_OLD_HUNGARIAN")), (EStr (lit "Old Hungarian")));
  ((EName (lit "UBLOCK_SUPPLEMENTAL_SYMBOLS_AND_PICTOGRAPHS")), (EStr (lit "Sup Symbols And Pictographs")));
  ((EName (lit "UBLOCK_SUTTON_SIGNWRITING")), (EStr (lit "Sutton SignWriting")));
  ((EName (lit "UBLOCK_ADLAM")), (EStr (lit "Adlam")));
  ((EName (lit "UBLOCK_BHAIKSUKI")), (EStr (lit "Bhaiksuki")));
  ((EName (lit "UBLOCK_CYRILLIC_EXTENDED_C")), (EStr (lit "Cyrillic Ext C")));
  ((EName (lit "UBLOCK_GLAGOLITIC_SUPPLEMENT")), (EStr (lit "Glagolitic Sup")));
  ((EName (lit "UBLOCK_IDEOGRAPHIC_SYMBOLS_AND_PUNCTUATION")), (EStr (lit "Ideographic Symbols")));
  ((EName (lit "UBLOCK_MARCHEN")), (EStr (lit "Marchen")));
  ((EName (lit "UBLOCK_MONGOLIAN_SUPPLEMENT")), (EStr (lit "Mongolian Sup")));
  ((EName (lit "UBLOCK_NEWA")), (EStr (lit "Newa")));
  ((EName (lit "UBLOCK_OSAGE")), (EStr (lit "Osage")));
  ((EName (lit "UBLOCK_TANGUT")), (EStr (lit "Tangut")));
  ((EName (lit "UBLOCK_TANGUT_COMPONENTS")), (EStr (lit "Tangut Components")));
  ((EName (lit "UBLOCK_CJK_UNIFIED_IDEOGRAPHS_EXTENSION_F")), (EStr (lit "CJK Ext F")));
  ((EName (lit "UBLOCK_KANA_EXTENDED_A")), (EStr (lit "Kana Ext A")));
  ((EName (lit "UBLOCK_MASARAM_GONDI")), (EStr (lit "Masaram Gondi")));
  ((EName (lit "UBLOCK_NUSHU")), (EStr (lit "Nushu")));
  ((EName (lit "UBLOCK_SOYOMBO")), (EStr (lit "Soyombo")));
  ((EName (lit "UBLOCK_SYRIAC_SUPPLEMENT")), (EStr (lit "Syriac Sup")));
  ((EName (lit "UBLOCK_ZANABAZAR_SQUARE")), (EStr (lit "Zanabazar Square")));
  ((EName (lit "UBLOCK_CHESS_SYMBOLS")), (EStr (lit "Chess Symbols")));
  ((EName (lit "UBLOCK_DOGRA")), (EStr (lit "Dogra")));
  ((EName (lit "UBLOCK_GEORGIAN_EXTENDED")), (EStr (lit "Georgian Ext")));
  ((EName (lit "UBLOCK_GUNJALA_GONDI")), (EStr (lit "Gunjala Gondi")));
  ((EName (lit "UBLOCK_HANIFI_ROHINGYA")), (EStr (lit "Hanifi Rohingya")));
  ((EName (lit "UBLOCK_INDIC_SIYAQ_NUMBERS")), (EStr (lit "Indic Siyaq Numbers")));
  ((EName (lit "UBLOCK_MAKASAR")), (EStr (lit "Makasar")));
  ((EName (lit "UBLOCK_MAYAN_NUMERALS")), (EStr (lit "Mayan Numerals")));
  ((EName (lit "UBLOCK_MEDEFAIDRIN")), (EStr (lit "Medefaidrin")));
  ((EName (lit "UBLOCK_OLD_SOGDIAN")), (EStr (lit "Old Sogdian")));
  ((EName (lit "UBLOCK_SOGDIAN")), (EStr (lit "Sogdian")));
  ((EName (lit "UBLOCK_EGYPTIAN_HIEROGLYPH_FORMAT_CONTROLS")), (EStr (lit "Egyptian Hieroglyph Format Controls")));
  ((EName (lit "UBLOCK_ELYMAIC")), (EStr (lit "Elymaic")));
  ((EName (lit "UBLOCK_NANDINAGARI")), (EStr (lit "Nandinagari")));
  ((EName (lit "UBLOCK_NYIAKENG_PUACHUE_HMONG")), (EStr (lit "Nyiakeng Puachue Hmong")));
  ((EName (lit "UBLOCK_OTTOMAN_SIYAQ_NUMBERS")), (EStr (lit "Ottoman Siyaq Numbers")));
  ((EName (lit "UBLOCK_SMALL_KANA_EXTENSION")), (EStr (lit "Small Kana Ext")));
  ((EName (lit "UBLOCK_SYMBOLS_AND_PICTOGRAPHS_EXTENDED_A")), (EStr (lit "Symbols And Pictographs Ext A")));
  ((EName (lit "UBLOCK_TAMIL_SUPPLEMENT")), (EStr (lit "Tamil Sup")));
  ((EName (lit "UBLOCK_WANCHO")), (EStr (lit "Wancho")));
  ((EName (lit "UBLOCK_CHORASMIAN")), (EStr (lit "Chorasmian")));
  ((EName (lit "UBLOCK_CJK_UNIFIED_IDEOGRAPHS_EXTENSION_G")), (EStr (lit "CJK Ext G")));
  ((EName (lit "UBLOCK_DIVES_AKURU")), (EStr (lit "Dives Akuru")));
  ((EName (lit "UBLOCK_KHITAN_SMALL_SCRIPT")), (EStr (lit "Khitan Small Script")));
  ((EName (lit "UBLOCK_LISU_SUPPLEMENT")), (EStr (lit "Lisu Sup")));
  ((EName (lit "UBLOCK_SYMBOLS_FOR_LEGACY_COMPUTING")), (EStr (lit "Symbols For Legacy Computing")));
  ((EName (lit "UBLOCK_TANGUT_SUPPLEMENT")), (EStr (lit "Tangut Sup")));
  ((EName (lit "UBLOCK_YEZIDI")), (EStr (lit "Yezidi")))])].
Definition Blocks_env : dict pval := Eval vm_compute in ok_env (exec Blocks_src).
Lemma Blocks_is : exec Blocks_src = Ok Blocks_env.
Proof. vm_cast_no_check (eq_refl (Ok Blocks_env)). Qed.

(** Boundaries.py:10-262 *)
Definition Boundaries_src : list stmt := [
  SAssign (lit "GCB_OTHER") (EInt 0);
  SAssign (lit "GCB_CONTROL") (EInt 1);
  SAssign (lit "GCB_CR") (EInt 2);
  SAssign (lit "GCB_EXTEND") (EInt 3);
  SAssign (lit "GCB_L") (EInt 4);
  SAssign (lit "GCB_LF") (EInt 5);
  SAssign (lit "GCB_LV") (EInt 6);
  SAssign (lit "GCB_LVT") (EInt 7);
  SAssign (lit "GCB_T") (EInt 8);
  SAssign (lit "GCB_V") (EInt 9);
  SAssign (lit "GCB_SPACING_MARK") (EInt 10);
  SAssign (lit "GCB_PREPEND") (EInt 11);
  SAssign (lit "GCB_REGIONAL_INDICATOR") (EInt 12);
  SAssign (lit "GCB_E_BASE") (EInt 13);
  SAssign (lit "GCB_E_BASE_GAZ") (EInt 14);
  SAssign (lit "GCB_E_MODIFIER") (EInt 15);
  SAssign (lit "GCB_GLUE_AFTER_ZWJ") (EInt 16);
  SAssign (lit "GCB_ZWJ") (EInt 17);
  SAssign (lit "WB_OTHER") (EInt 0);
  SAssign (lit "WB_ALETTER") (EInt 1);
  SAssign (lit "WB_FORMAT") (EInt 2);
  SAssign (lit "WB_KATAKANA") (EInt 3);
  SAssign (lit "WB_MIDLETTER") (EInt 4);
  SAssign (lit "WB_MIDNUM") (EInt 5);
  SAssign (lit "WB_NUMERIC") (EInt 6);
  SAssign (lit "WB_EXTENDNUMLET") (EInt 7);
  SAssign (lit "WB_CR") (EInt 8);
  SAssign (lit "WB_EXTEND") (EInt 9);
  SAssign (lit "WB_LF") (EInt 10);
  SAssign (lit "WB_MIDNUMLET") (EInt 11);
  SAssign (lit "WB_NEWLINE") (EInt 12);
  SAssign (lit "WB_REGIONAL_INDICATOR") (EInt 13);
  SAssign (lit "WB_HEBREW_LETTER") (EInt 14);
  SAssign (lit "WB_SINGLE_QUOTE") (EInt 15);
  SAssign (lit "WB_DOUBLE_QUOTE") (EInt 16);
  SAssign (lit "WB_E_BASE") (EInt 17);
  SAssign (lit "WB_E_BASE_GAZ") (EInt 18);
  SAssign (lit "WB_E_MODIFIER") (EInt 19);
  SAssign (lit "WB_GLUE_AFTER_ZWJ") (EInt 20);
  SAssign (lit "WB_ZWJ") (EInt 21);
  SAssign (lit "WB_WSEGSPACE") (EInt 22);
  SAssign (lit "SB_OTHER") (EInt 0);
  SAssign (lit "SB_ATERM") (EInt 1);
  SAssign (lit "SB_CLOSE") (EInt 2);
  SAssign (lit "SB_FORMAT") (EInt 3);
  SAssign (lit "SB_LOWER") (EInt 4);
  SAssign (lit "SB_NUMERIC") (EInt 5);
  SAssign (lit "SB_OLETTER") (EInt 6);
  SAssign (lit "SB_SEP") (EInt 7);
  SAssign (lit "SB_SP") (EInt 8);
  SAssign (lit "SB_STERM") (EInt 9);
  SAssign (lit "SB_UPPER") (EInt 10);
  SAssign (lit "SB_CR") (EInt 11);
  SAssign (lit "SB_EXTEND") (EInt 12);
  SAssign (lit "SB_LF") (EInt 13);
  SAssign (lit "SB_SCONTINUE") (EInt 14);
  SAssign (lit "LB_UNKNOWN") (EInt 0);
  SAssign (lit "LB_AMBIGUOUS") (EInt 1);
  SAssign (lit "LB_ALPHABETIC") (EInt 2);
  SAssign (lit "LB_BREAK_BOTH") (EInt 3);
  SAssign (lit "LB_BREAK_AFTER") (EInt 4);
  SAssign (lit "LB_BREAK_BEFORE") (EInt 5);
  SAssign (lit "LB_MANDATORY_BREAK") (EInt 6);
  SAssign (lit "LB_CONTINGENT_BREAK") (EInt 7);
  SAssign (lit "LB_CLOSE_PUNCTUATION") (EInt 8);
  SAssign (lit "LB_COMBINING_MARK") (EInt 9);
  SAssign (lit "LB_CARRIAGE_RETURN") (EInt 10);
  SAssign (lit "LB_EXCLAMATION") (EInt 11);
  SAssign (lit "LB_GLUE") (EInt 12);
  SAssign (lit "LB_HYPHEN") (EInt 13);
  SAssign (lit "LB_IDEOGRAPHIC") (EInt 14);
  SAssign (lit "LB_INSEPARABLE") (EInt 15);
  SAssign (lit "LB_INFIX_NUMERIC") (EInt 16);
  SAssign (lit "LB_LINE_FEED") (EInt 17);
  SAssign (lit "LB_NONSTARTER") (EInt 18);
  SAssign (lit "LB_NUMERIC") (EInt 19);
  SAssign (lit "LB_OPEN_PUNCTUATION") (EInt 20);
  SAssign (lit "LB_POSTFIX_NUMERIC") (EInt 21);
  SAssign (lit "LB_PREFIX_NUMERIC") (EInt 22);
  SAssign (lit "LB_QUOTATION") (EInt 23);
  SAssign (lit "LB_COMPLEX_CONTEXT") (EInt 24);
  SAssign (lit "LB_SURROGATE") (EInt 25);
  SAssign (lit "LB_SPACE") (EInt 26);
  SAssign (lit "LB_BREAK_SYMBOLS") (EInt 27);
  SAssign (lit "LB_ZWSPACE") (EInt 28);
  SAssign (lit "LB_NEXT_LINE") (EInt 29);
  SAssign (lit "LB_WORD_JOINER") (EInt 30);
  SAssign (lit "LB_H2") (EInt 31);
  SAssign (lit "LB_H3") (EInt 32);
  SAssign (lit "LB_JL") (EInt 33);
  SAssign (lit "LB_JT") (EInt 34);
  SAssign (lit "LB_JV") (EInt 35);
  SAssign (lit "LB_CLOSE_PARENTHESIS") (EInt 36);
  SAssign (lit "LB_CONDITIONAL_JAPANESE_STARTER") (EInt 37);
  SAssign (lit "LB_HEBREW_LETTER") (EInt 38);
  SAssign (lit "LB_REGIONAL_INDICATOR") (EInt 39);
  SAssign (lit "LB_E_BASE") (EInt 40);
  SAssign (lit "LB_E_MODIFIER") (EInt 41);
  SAssign (lit "LB_ZWJ") (EInt 42);
  SAssign (lit "graphemeClusterBreakNames") (EDict [
  ((EName (lit "GCB_OTHER")), (EStr (lit "XX")));
  ((EName (lit "GCB_CONTROL")), (EStr (lit "CN")));
  ((EName (lit "GCB_CR")), (EStr (lit "CR")));
  ((EName (lit "GCB_EXTEND")), (EStr (lit "EX")));
  ((EName (lit "GCB_L")), (EStr (lit "L")));
  ((EName (lit "GCB_LF")), (EStr (lit "LF")));
  ((EName (lit "GCB_LV")), (EStr (lit "LV")));
  ((EName (lit "GCB_LVT")), (EStr (lit "LVT")));
  ((EName (lit "GCB_T")), (EStr (lit "T")));
  ((EName (lit "GCB_V")), (EStr (lit "V")));
  ((EName (lit "GCB_SPACING_MARK")), (EStr (lit "SM")));
  ((EName (lit "GCB_PREPEND")), (EStr (lit "PP")));
  ((EName (lit "GCB_REGIONAL_INDICATOR")), (EStr (lit "RI")));
  ((EName (lit "GCB_E_BASE")), (EStr (lit "EB")));
  ((EName (lit "GCB_E_BASE_GAZ")), (EStr (lit "EBG")));
  ((EName (lit "GCB_E_MODIFIER")), (EStr (lit "EM")));
  ((EName (lit "GCB_GLUE_AFTER_ZWJ")), (EStr (lit "GAZ")));
  ((EName (lit "GCB_ZWJ")), (EStr (lit "ZWJ")))]);
  SAssign (lit "wordBreakNames") (EDict [
  ((EName (lit "WB_OTHER")), (EStr (lit "XX")));
  ((EName (lit "WB_ALETTER")), (EStr (lit "LE")));
  ((EName (lit "WB_FORMAT")), (EStr (lit "FO")));
  ((EName (lit "WB_KATAKANA")), (EStr (lit "KA")));
  ((EName (lit "WB_MIDLETTER")), (EStr (lit "ML")));
  ((EName (lit "WB_MIDNUM")), (EStr (lit "MN")));
  ((EName (lit "WB_NUMERIC")), (EStr (lit "NU")));
  ((EName (lit "WB_EXTENDNUMLET")), (EStr (lit "EX")));
  ((EName (lit "WB_CR")), (EStr (lit "CR")));
  ((EName (lit "WB_EXTEND")), (EStr (lit "Extend")));
  ((EName (lit "WB_LF")), (EStr (lit "LF")));
  ((EName (lit "WB_MIDNUMLET")), (EStr (lit "MB")));
  ((EName (lit "WB_NEWLINE")), (EStr (lit "NL")));
  ((EName (lit "WB_REGIONAL_INDICATOR")), (EStr (lit "RI")));
  ((EName (lit "WB_HEBREW_LETTER")), (EStr (lit "HL")));
  ((EName (lit "WB_SINGLE_QUOTE")), (EStr (lit "SQ")));
  ((EName (lit "WB_DOUBLE_QUOTE")), (EStr (lit "DQ")));
  ((EName (lit "WB_E_BASE")), (EStr (lit "EB")));
  ((EName (lit "WB_E_BASE_GAZ")), (EStr (lit "EBG")));
  ((EName (lit "WB_E_MODIFIER")), (EStr (lit "EM")));
  ((EName (lit "WB_GLUE_AFTER_ZWJ")), (EStr (lit "GAZ")));
  ((EName (lit "WB_ZWJ")), (EStr (lit "ZWJ")));
  ((EName (lit "WB_WSEGSPACE")), (EStr (lit "WSEGSPACE")))]);
  SAssign (lit "sentenceBreakNames") (EDict [
  ((EName (lit "SB_OTHER")), (EStr (lit "XX")));
  ((EName (lit "SB_ATERM")), (EStr (lit "AT")));
  ((EName (lit "SB_CLOSE")), (EStr (lit "CL")));
  ((EName (lit "SB_FORMAT")), (EStr (lit "FO")));
  ((EName (lit "SB_LOWER")), (EStr (lit "LO")));
  ((EName (lit "SB_NUMERIC")), (EStr (lit "NU")));
  ((EName (lit "SB_OLETTER")), (EStr (lit "LE")));
  ((EName (lit "SB_SEP")), (EStr (lit "SE")));
  ((EName (lit "SB_SP")), (EStr (lit "SP")));
  ((EName (lit "SB_STERM")), (EStr (lit "ST")));
  ((EName (lit "SB_UPPER")), (EStr (lit "UP")));
  ((EName (lit "SB_CR")), (EStr (lit "CR")));
  ((EName (lit "SB_EXTEND")), (EStr (lit "EX")));
  ((EName (lit "SB_LF")), (EStr (lit "LF")));
  ((EName (lit "SB_SCONTINUE")), (EStr (lit "SC")))]);
  SAssign (lit "lineBreakNames") (EDict [
  ((EName (lit "LB_UNKNOWN")), (EStr (lit "XX")));
  ((EName (lit "LB_AMBIGUOUS")), (EStr (lit "AI")));
  ((EName (lit "LB_ALPHABETIC")), (EStr (lit "AL")));
  ((EName (lit "LB_BREAK_BOTH")), (EStr (lit "B2")));
  ((EName (lit "LB_BREAK_AFTER")), (EStr (lit "BA")));
  ((EName (lit "LB_BREAK_BEFORE")), (EStr (lit "BB")));
  ((EName (lit "LB_MANDATORY_BREAK")), (EStr (lit "BK")));
  ((EName (lit "LB_CONTINGENT_BREAK")), (EStr (lit "CB")));
  ((EName (lit "LB_CLOSE_PUNCTUATION")), (EStr (lit "CL")));
  ((EName (lit "LB_COMBINING_MARK")), (EStr (lit "CM")));
  ((EName (lit "LB_CARRIAGE_RETURN")), (EStr (lit "CR")));
  ((EName (lit "LB_EXCLAMATION")), (EStr (lit "EX")));
  ((EName (lit "LB_GLUE")), (EStr (lit "GL")));
  ((EName (lit "LB_HYPHEN")), (EStr (lit "HY")));
  ((EName (lit "LB_IDEOGRAPHIC")), (EStr (lit "ID")));
  ((EName (lit "LB_INSEPARABLE")), (EStr (lit "IN")));
  ((EName (lit "LB_INFIX_NUMERIC")), (EStr (lit "IS")));
  ((EName (lit "LB_LINE_FEED")), (EStr (lit "LF")));
  ((EName (lit "LB_NONSTARTER")), (EStr (lit "NS")));
  ((EName (lit "LB_NUMERIC")), (EStr (lit "NU")));
  ((EName (lit "LB_OPEN_PUNCTUATION")), (EStr (lit "OP")));
  ((EName (lit "LB_POSTFIX_NUMERIC")), (EStr (lit "PO")));
  ((EName (lit "LB_PREFIX_NUMERIC")), (EStr (lit "PR")));
  ((EName (lit "LB_QUOTATION")), (EStr (lit "QU")));
  ((EName (lit "LB_COMPLEX_CONTEXT")), (EStr (lit "SA")));
  ((EName (lit "LB_SURROGATE")), (EStr (lit "SG")));
  ((EName (lit "LB_SPACE")), (EStr (lit "SP")));
  ((EName (lit "LB_BREAK_SYMBOLS")), (EStr (lit "SY")));
  ((EName (lit "LB_ZWSPACE")), (EStr (lit "ZW")));
  ((EName (lit "LB_NEXT_LINE")), (EStr (lit "NL")));
  ((EName (lit "LB_WORD_JOINER")), (EStr (lit "WJ")));
  ((EName (lit "LB_H2")), (EStr (lit "H2")));
  ((EName (lit "LB_H3")), (EStr (lit "H3")));
  ((EName (lit "LB_JL")), (EStr (lit "JL")));
  ((EName (lit "LB_JT")), (EStr (lit "JT")));
  ((EName (lit "LB_JV")), (EStr (lit "JV")));
  ((EName (lit "LB_CLOSE_PARENTHESIS")), (EStr (lit "CP")));
  ((EName (lit "LB_CONDITIONAL_JAPANESE_STARTER")), (EStr (lit "CJ")));
  ((EName (lit "LB_HEBREW_LETTER")), (EStr (lit "HL")));
  ((EName (lit "LB_REGIONAL_INDICATOR")), (EStr (lit "RI")));
  ((EName (lit "LB_E_BASE")), (EStr (lit "EB")));
  ((EName (lit "LB_E_MODIFIER")), (EStr (lit "EM")));
  ((EName (lit "LB_ZWJ")), (EStr (lit "ZWJ")))])].
Definition Boundaries_env : dict pval := Eval vm_compute in ok_env (exec Boundaries_src).
Lemma Boundaries_is : exec Boundaries_src = Ok Boundaries_env.
Proof. vm_cast_no_check (eq_refl (Ok Boundaries_env)). Qed.

(** CharDirection.py:10-103 *)
Definition CharDirection_src : list stmt := [
  SAssign (lit "U_LEFT_TO_RIGHT") (EInt 0);
  SAssign (lit "U_RIGHT_TO_LEFT") (EInt 1);
  SAssign (lit "U_EUROPEAN_NUMBER") (EInt 2);
  SAssign (lit "U_EUROPEAN_NUMBER_SEPARATOR") (EInt 3);
  SAssign (lit "U_EUROPEAN_NUMBER_TERMINATOR") (EInt 4);
  SAssign (lit "U_ARABIC_NUMBER") (EInt 5);
  SAssign (lit "U_COMMON_NUMBER_SEPARATOR") (EInt 6);
  SAssign (lit "U_BLOCK_SEPARATOR") (EInt 7);
  SAssign (lit "U_SEGMENT_SEPARATOR") (EInt 8);
  SAssign (lit "U_WHITE_SPACE_NEUTRAL") (EInt 9);
  SAssign (lit "U_OTHER_NEUTRAL") (EInt 10);
  SAssign (lit "U_LEFT_TO_RIGHT_EMBEDDING") (EInt 11);
  SAssign (lit "U_LEFT_TO_RIGHT_OVERRIDE") (EInt 12);
  SAssign (lit "U_RIGHT_TO_LEFT_ARABIC") (EInt 13);
  SAssign (lit "U_RIGHT_TO_LEFT_EMBEDDING") (EInt 14);
  SAssign (lit "U_RIGHT_TO_LEFT_OVERRIDE") (EInt 15);
  SAssign (lit "U_POP_DIRECTIONAL_FORMAT") (EInt 16);
  SAssign (lit "U_DIR_NON_SPACING_MARK") (EInt 17);
  SAssign (lit "U_BOUNDARY_NEUTRAL") (EInt 18);
  SAssign (lit "U_FIRST_STRONG_ISOLATE") (EInt 19);
  SAssign (lit "U_LEFT_TO_RIGHT_ISOLATE") (EInt 20);
  SAssign (lit "U_RIGHT_TO_LEFT_ISOLATE") (EInt 21);
  SAssign (lit "U_POP_DIRECTIONAL_ISOLATE") (EInt 22);
  SAssign (lit "bidiClassNames") (EDict [
  ((EName (lit "U_LEFT_TO_RIGHT")), (EStr (lit "L")));
  ((EName (lit "U_RIGHT_TO_LEFT")), (EStr (lit "R")));
  ((EName (lit "U_EUROPEAN_NUMBER")), (EStr (lit "EN")));
  ((EName (lit "U_EUROPEAN_NUMBER_SEPARATOR")), (EStr (lit "ES")));
  ((EName (lit "U_EUROPEAN_NUMBER_TERMINATOR")), (EStr (lit "ET")));
  ((EName (lit "U_ARABIC_NUMBER")), (EStr (lit "AN")));
  ((EName (lit "U_COMMON_NUMBER_SEPARATOR")), (EStr (lit "CS")));
  ((EName (lit "U_BLOCK_SEPARATOR")), (EStr (lit "B")));
  ((EName (lit "U_SEGMENT_SEPARATOR")), (EStr (lit "S")));
  ((EName (lit "U_WHITE_SPACE_NEUTRAL")), (EStr (lit "WS")));
  ((EName (lit "U_OTHER_NEUTRAL")), (EStr (lit "ON")));
  ((EName (lit "U_LEFT_TO_RIGHT_EMBEDDING")), (EStr (lit "LRE")));
  ((EName (lit "U_LEFT_TO_RIGHT_OVERRIDE")), (EStr (lit "LRO")));
  ((EName (lit "U_RIGHT_TO_LEFT_ARABIC")), (EStr (lit "AL")));
  ((EName (lit "U_RIGHT_TO_LEFT_EMBEDDING")), (EStr (lit "RLE")));
  ((EName (lit "U_RIGHT_TO_LEFT_OVERRIDE")), (EStr (lit "RLO")));
  ((EName (lit "U_POP_DIRECTIONAL_FORMAT")), (EStr (lit "PDF")));
  ((EName (lit "U_DIR_NON_SPACING_MARK")), (EStr (lit "NSM")));
  ((EName (lit "U_BOUNDARY_NEUTRAL")), (EStr (lit "BN")));
  ((EName (lit "U_FIRST_STRONG_ISOLATE")), (EStr (lit "FSI")));
  ((EName (lit "U_LEFT_TO_RIGHT_ISOLATE")), (EStr (lit "LRI")));
  ((EName (lit "U_RIGHT_TO_LEFT_ISOLATE")), (EStr (lit "RLI")));
  ((EName (lit "U_POP_DIRECTIONAL_ISOLATE")), (EStr (lit "PDI")))])].
Definition CharDirection_env : dict pval := Eval vm_compute in ok_env (exec CharDirection_src).
Lemma CharDirection_is : exec CharDirection_src = Ok CharDirection_env.
Proof. vm_cast_no_check (eq_refl (Ok CharDirection_env)). Qed.

(** Characters.py:9-39 *)
Definition Characters_src : list stmt := [
  SAssign (lit "CH_TAB") (EInt 9);
  SAssign (lit "CH_LF") (EInt 10);
  SAssign (lit "CH_FF") (EInt 12);
  SAssign (lit "CH_CR") (EInt 13);
  SAssign (lit "CH_SPACE") (EInt 32);
  SAssign (lit "CH_U_A") (EInt 65);
  SAssign (lit "CH_U_F") (EInt 70);
  SAssign (lit "CH_U_Z") (EInt 90);
  SAssign (lit "CH_U_a") (EInt 97);
  SAssign (lit "CH_U_f") (EInt 102);
  SAssign (lit "CH_U_z") (EInt 122);
  SAssign (lit "CH_DEL") (EInt 127);
  SAssign (lit "CH_NL") (EInt 133);
  SAssign (lit "CH_NBSP") (EInt 160);
  SAssign (lit "CH_CGJ") (EInt 847);
  SAssign (lit "CH_FIGURESP") (EInt 8199);
  SAssign (lit "CH_HAIRSP") (EInt 8202);
  SAssign (lit "CH_ZWNJ") (EInt 8204);
  SAssign (lit "CH_ZWJ") (EInt 8205);
  SAssign (lit "CH_RLM") (EInt 8207);
  SAssign (lit "CH_NNBSP") (EInt 8239);
  SAssign (lit "CH_WJ") (EInt 8288);
  SAssign (lit "CH_INHSWAP") (EInt 8298);
  SAssign (lit "CH_NOMDIG") (EInt 8303);
  SAssign (lit "CH_U_FW_A") (EInt 65313);
  SAssign (lit "CH_U_FW_F") (EInt 65318);
  SAssign (lit "CH_U_FW_Z") (EInt 65338);
  SAssign (lit "CH_U_FW_a") (EInt 65345);
  SAssign (lit "CH_U_FW_f") (EInt 65350);
  SAssign (lit "CH_U_FW_z") (EInt 65370);
  SAssign (lit "ZWNBSP") (EInt 65279)].
Definition Characters_env : dict pval := Eval vm_compute in ok_env (exec Characters_src).
Lemma Characters_is : exec Characters_src = Ok Characters_env.
Proof. vm_cast_no_check (eq_refl (Ok Characters_env)). Qed.

(** DecompositionType.py:9-47 *)
Definition DecompositionType_src : list stmt := [
  SAssign (lit "U_DT_NONE") (EInt 0);
  SAssign (lit "U_DT_CANONICAL") (EInt 1);
  SAssign (lit "U_DT_COMPAT") (EInt 2);
  SAssign (lit "U_DT_CIRCLE") (EInt 3);
  SAssign (lit "U_DT_FINAL") (EInt 4);
  SAssign (lit "U_DT_FONT") (EInt 5);
  SAssign (lit "U_DT_FRACTION") (EInt 6);
  SAssign (lit "U_DT_INITIAL") (EInt 7);
  SAssign (lit "U_DT_ISOLATED") (EInt 8);
  SAssign (lit "U_DT_MEDIAL") (EInt 9);
  SAssign (lit "U_DT_NARROW") (EInt 10);
  SAssign (lit "U_DT_NOBREAK") (EInt 11);
  SAssign (lit "U_DT_SMALL") (EInt 12);
  SAssign (lit "U_DT_SQUARE") (EInt 13);
  SAssign (lit "U_DT_SUB") (EInt 14);
  SAssign (lit "U_DT_SUPER") (EInt 15);
  SAssign (lit "U_DT_VERTICAL") (EInt 16);
  SAssign (lit "U_DT_WIDE") (EInt 17);
  SAssign (lit "decompositionTypeNames") (EDict [
  ((EName (lit "U_DT_NONE")), (EStr (lit "none")));
  ((EName (lit "U_DT_CANONICAL")), (EStr (lit "can")));
  ((EName (lit "U_DT_COMPAT")), (EStr (lit "com")));
  ((EName (lit "U_DT_CIRCLE")), (EStr (lit "enc")));
  ((EName (lit "U_DT_FINAL")), (EStr (lit "fin")));
  ((EName (lit "U_DT_FONT")), (EStr (lit "font")));
  ((EName (lit "U_DT_FRACTION")), (EStr (lit "fra")));
  ((EName (lit "U_DT_INITIAL")), (EStr (lit "init")));
  ((EName (lit "U_DT_ISOLATED")), (EStr (lit "iso")));
  ((EName (lit "U_DT_MEDIAL")), (EStr (lit "med")));
  ((EName (lit "U_DT_NARROW")), (EStr (lit "nar")));
  ((EName (lit "U_DT_NOBREAK")), (EStr (lit "nb")));
  ((EName (lit "U_DT_SMALL")), (EStr (lit "sml")));
  ((EName (lit "U_DT_SQUARE")), (EStr (lit "sqr")));
  ((EName (lit "U_DT_SUB")), (EStr (lit "sub")));
  ((EName (lit "U_DT_SUPER")), (EStr (lit "sup")));
  ((EName (lit "U_DT_VERTICAL")), (EStr (lit "vert")));
  ((EName (lit "U_DT_WIDE")), (EStr (lit "wide")))])].
Definition DecompositionType_env : dict pval := Eval vm_compute in ok_env (exec DecompositionType_src).
Lemma DecompositionType_is : exec DecompositionType_src = Ok DecompositionType_env.
Proof. vm_cast_no_check (eq_refl (Ok DecompositionType_env)). Qed.

(** EastAsianWidth.py:9-23 *)
Definition EastAsianWidth_src : list stmt := [
  SAssign (lit "U_EA_NEUTRAL") (EInt 0);
  SAssign (lit "U_EA_AMBIGUOUS") (EInt 1);
  SAssign (lit "U_EA_HALFWIDTH") (EInt 2);
  SAssign (lit "U_EA_FULLWIDTH") (EInt 3);
  SAssign (lit "U_EA_NARROW") (EInt 4);
  SAssign (lit "U_EA_WIDE") (EInt 5);
  SAssign (lit "eastAsianWidthNames") (EDict [
  ((EName (lit "U_EA_NEUTRAL")), (EStr (lit "N")));
  ((EName (lit "U_EA_AMBIGUOUS")), (EStr (lit "A")));
  ((EName (lit "U_EA_HALFWIDTH")), (EStr (lit "H")));
  ((EName (lit "U_EA_FULLWIDTH")), (EStr (lit "F")));
  ((EName (lit "U_EA_NARROW")), (EStr (lit "Na")));
  ((EName (lit "U_EA_WIDE")), (EStr (lit "W")))])].
Definition EastAsianWidth_env : dict pval := Eval vm_compute in ok_env (exec EastAsianWidth_src).
Lemma EastAsianWidth_is : exec EastAsianWidth_src = Ok EastAsianWidth_env.
Proof. vm_cast_no_check (eq_refl (Ok EastAsianWidth_env)). Qed.

(** GeneralCategories.py:10-206 *)
Definition GeneralCategories_src : list stmt := [
  SAssign (lit "GC_UNASSIGNED") (EInt 0);
  SAssign (lit "GC_GENERAL_OTHER_TYPES") (EInt 0);
  SAssign (lit "GC_UPPERCASE_LETTER") (EInt 1);
  SAssign (lit "GC_LOWERCASE_LETTER") (EInt 2);
  SAssign (lit "GC_TITLECASE_LETTER") (EInt 3);
  SAssign (lit "GC_MODIFIER_LETTER") (EInt 4);
  SAssign (lit "GC_OTHER_LETTER") (EInt 5);
  SAssign (lit "GC_NON_SPACING_MARK") (EInt 6);
  SAssign (lit "GC_ENCLOSING_MARK") (EInt 7);
  SAssign (lit "GC_COMBINING_SPACING_MARK") (EInt 8);
  SAssign (lit "GC_DECIMAL_DIGIT_NUMBER") (EInt 9);
  SAssign (lit "GC_LETTER_NUMBER") (EInt 10);
  SAssign (lit "GC_OTHER_NUMBER") (EInt 11);
  SAssign (lit "GC_SPACE_SEPARATOR") (EInt 12);
  SAssign (lit "GC_LINE_SEPARATOR") (EInt 13);
  SAssign (lit "GC_PARAGRAPH_SEPARATOR") (EInt 14);
  SAssign (lit "GC_CONTROL_CHAR") (EInt 15);
  SAssign (lit "GC_FORMAT_CHAR") (EInt 16);
  SAssign (lit "GC_PRIVATE_USE_CHAR") (EInt 17);
  SAssign (lit "GC_SURROGATE") (EInt 18);
  SAssign (lit "GC_DASH_PUNCTUATION") (EInt 19);
  SAssign (lit "GC_START_PUNCTUATION") (EInt 20);
  SAssign (lit "GC_END_PUNCTUATION") (EInt 21);
  SAssign (lit "GC_CONNECTOR_PUNCTUATION") (EInt 22);
  SAssign (lit "GC_OTHER_PUNCTUATION") (EInt 23);
  SAssign (lit "GC_MATH_SYMBOL") (EInt 24);
  SAssign (lit "GC_CURRENCY_SYMBOL") (EInt 25);
  SAssign (lit "GC_MODIFIER_SYMBOL") (EInt 26);
  SAssign (lit "GC_OTHER_SYMBOL") (EInt 27);
  SAssign (lit "GC_INITIAL_PUNCTUATION") (EInt 28);
  SAssign (lit "GC_FINAL_PUNCTUATION") (EInt 29);
  SAssign (lit "GC_CATEFORY_COUNT") (EInt 30);
  SAssign (lit "GC_CN_MASK") (EBin OpShl (EInt 1) (EName (lit "GC_GENERAL_OTHER_TYPES")));
  SAssign (lit "GC_LU_MASK") (EBin OpShl (EInt 1) (EName (lit "GC_UPPERCASE_LETTER")));
  SAssign (lit "GC_LL_MASK") (EBin OpShl (EInt 1) (EName (lit "GC_LOWERCASE_LETTER")));
  SAssign (lit "GC_LT_MASK") (EBin OpShl (EInt 1) (EName (lit "GC_TITLECASE_LETTER")));
  SAssign (lit "GC_LM_MASK") (EBin OpShl (EInt 1) (EName (lit "GC_MODIFIER_LETTER")));
  SAssign (lit "GC_LO_MASK") (EBin OpShl (EInt 1) (EName (lit "GC_OTHER_LETTER")));
  SAssign (lit "GC_MN_MASK") (EBin OpShl (EInt 1) (EName (lit "GC_NON_SPACING_MARK")));
  SAssign (lit "GC_ME_MASK") (EBin OpShl (EInt 1) (EName (lit "GC_ENCLOSING_MARK")));
  SAssign (lit "GC_MC_MASK") (EBin OpShl (EInt 1) (EName (lit "GC_COMBINING_SPACING_MARK")));
  SAssign (lit "GC_ND_MASK") (EBin OpShl (EInt 1) (EName (lit "GC_DECIMAL_DIGIT_NUMBER")));
  SAssign (lit "GC_NL_MASK") (EBin OpShl (EInt 1) (EName (lit "GC_LETTER_NUMBER")));
  SAssign (lit "GC_NO_MASK") (EBin OpShl (EInt 1) (EName (lit "GC_OTHER_NUMBER")));
  SAssign (lit "GC_ZS_MASK") (EBin OpShl (EInt 1) (EName (lit "GC_SPACE_SEPARATOR")));
  SAssign (lit "GC_ZL_MASK") (EBin OpShl (EInt 1) (EName (lit "GC_LINE_SEPARATOR")));
  SAssign (lit "GC_ZP_MASK") (EBin OpShl (EInt 1) (EName (lit "GC_PARAGRAPH_SEPARATOR")));
  SAssign (lit "GC_CC_MASK") (EBin OpShl (EInt 1) (EName (lit "GC_CONTROL_CHAR")));
  SAssign (lit "GC_CF_MASK") (EBin OpShl (EInt 1) (EName (lit "GC_FORMAT_CHAR")));
  SAssign (lit "GC_CO_MASK") (EBin OpShl (EInt 1) (EName (lit "GC_PRIVATE_USE_CHAR")));
  SAssign (lit "GC_CS_MASK") (EBin OpShl (EInt 1) (EName (lit "GC_SURROGATE")));
  SAssign (lit "GC_PD_MASK") (EBin OpShl (EInt 1) (EName (lit "GC_DASH_PUNCTUATION")));
  SAssign (lit "GC_PS_MASK") (EBin OpShl (EInt 1) (EName (lit "GC_START_PUNCTUATION")));
  SAssign (lit "GC_PE_MASK") (EBin OpShl (EInt 1) (EName (lit "GC_END_PUNCTUATION")));
  SAssign (lit "GC_PC_MASK") (EBin OpShl (EInt 1) (EName (lit "GC_CONNECTOR_PUNCTUATION")));
  SAssign (lit "GC_PO_MASK") (EBin OpShl (EInt 1) (EName (lit "GC_OTHER_PUNCTUATION")));
  SAssign (lit "GC_SM_MASK") (EBin OpShl (EInt 1) (EName (lit "GC_MATH_SYMBOL")));
  SAssign (lit "GC_SC_MASK") (EBin OpShl (EInt 1) (EName (lit "GC_CURRENCY_SYMBOL")));
  SAssign (lit "GC_SK_MASK") (EBin OpShl (EInt 1) (EName (lit "GC_MODIFIER_SYMBOL")));
  SAssign (lit "GC_SO_MASK") (EBin OpShl (EInt 1) (EName (lit "GC_OTHER_SYMBOL")));
  SAssign (lit "GC_PI_MASK") (EBin OpShl (EInt 1) (EName (lit "GC_INITIAL_PUNCTUATION")));
  SAssign (lit "GC_PF_MASK") (EBin OpShl (EInt 1) (EName (lit "GC_FINAL_PUNCTUATION")));
  SAssign (lit "GC_L_MASK") (EBin OpOr (EBin OpOr (EBin OpOr (EBin OpOr (EName (lit "GC_LU_MASK")) (EName (lit "GC_LL_MASK"))) (EName (lit "GC_LT_MASK"))) (EName (lit "GC_LM_MASK"))) (EName (lit "GC_LO_MASK")));
  SAssign (lit "GC_LC_MASK") (EBin OpOr (EBin OpOr (EName (lit "GC_LU_MASK")) (EName (lit "GC_LL_MASK"))) (EName (lit "GC_LT_MASK")));
  SAssign (lit "GC_M_MASK") (EBin OpOr (EBin OpOr (EName (lit "GC_MN_MASK")) (EName (lit "GC_ME_MASK"))) (EName (lit "GC_MC_MASK")));
  SAssign (lit "GC_N_MASK") (EBin OpOr (EBin OpOr (EName (lit "GC_ND_MASK")) (EName (lit "GC_NL_MASK"))) (EName (lit "GC_NO_MASK")));
  SAssign (lit "GC_Z_MASK") (EBin OpOr (EBin OpOr (EName (lit "GC_ZS_MASK")) (EName (lit "GC_ZL_MASK"))) (EName (lit "GC_ZP_MASK")));
  SAssign (lit "GC_C_MASK") (EBin OpOr (EBin OpOr (EBin OpOr (EBin OpOr (EName (lit "GC_CN_MASK")) (EName (lit "GC_CC_MASK"))) (EName (lit "GC_CF_MASK"))) (EName (lit "GC_CO_MASK"))) (EName (lit "GC_CS_MASK")));
  SAssign (lit "GC_P_MASK") (EBin OpOr (EBin OpOr (EBin OpOr (EBin OpOr (EBin OpOr (EBin OpOr (EName (lit "GC_PD_MASK")) (EName (lit "GC_PS_MASK"))) (EName (lit "GC_PE_MASK"))) (EName (lit "GC_PC_MASK"))) (EName (lit "GC_PO_MASK"))) (EName (lit "GC_PI_MASK"))) (EName (lit "GC_PF_MASK")));
  SAssign (lit "GC_S_MASK") (EBin OpOr (EBin OpOr (EBin OpOr (EName (lit "GC_SM_MASK")) (EName (lit "GC_SC_MASK"))) (EName (lit "GC_SK_MASK"))) (EName (lit "GC_SO_MASK")));
  SAssign (lit "generalCategories") (EDict [
  ((EName (lit "GC_GENERAL_OTHER_TYPES")), (EStr (lit "Cn")));
  ((EName (lit "GC_UPPERCASE_LETTER")), (EStr (lit "Lu")));
  ((EName (lit "GC_LOWERCASE_LETTER")), (EStr (lit "Ll")));
  ((EName (lit "GC_TITLECASE_LETTER")), (EStr (lit "Lt")));
  ((EName (lit "GC_MODIFIER_LETTER")), (EStr (lit "Lm")));
  ((EName (lit "GC_OTHER_LETTER")), (EStr (lit "Lo")));
  ((EName (lit "GC_NON_SPACING_MARK")), (EStr (lit "Mn")));
  ((EName (lit "GC_ENCLOSING_MARK")), (EStr (lit "Me")));
  ((EName (lit "GC_COMBINING_SPACING_MARK")), (EStr (lit "Mc")));
  ((EName (lit "GC_DECIMAL_DIGIT_NUMBER")), (EStr (lit "Nd")));
  ((EName (lit "GC_LETTER_NUMBER")), (EStr (lit "Nl")));
  ((EName (lit "GC_OTHER_NUMBER")), (EStr (lit "No")));
  ((EName (lit "GC_SPACE_SEPARATOR")), (EStr (lit "Zs")));
  ((EName (lit "GC_LINE_SEPARATOR")), (EStr (lit "Zl")));
  ((EName (lit "GC_PARAGRAPH_SEPARATOR")), (EStr (lit "Zp")));
  ((EName (lit "GC_CONTROL_CHAR")), (EStr (lit "Cc")));
  ((EName (lit "GC_FORMAT_CHAR")), (EStr (lit "Cf")));
  ((EName (lit "GC_PRIVATE_USE_CHAR")), (EStr (lit "Co")));
  ((EName (lit "GC_SURROGATE")), (EStr (lit "Cs")));
  ((EName (lit "GC_DASH_PUNCTUATION")), (EStr (lit "Pd")));
  ((EName (lit "GC_START_PUNCTUATION")), (EStr (lit "Ps")));
  ((EName (lit "GC_END_PUNCTUATION")), (EStr (lit "Pe")));
  ((EName (lit "GC_CONNECTOR_PUNCTUATION")), (EStr (lit "Pc")));
  ((EName (lit "GC_OTHER_PUNCTUATION")), (EStr (lit "Po")));
  ((EName (lit "GC_MATH_SYMBOL")), (EStr (lit "Sm")));
  ((EName (lit "GC_CURRENCY_SYMBOL")), (EStr (lit "Sc")));
  ((EName (lit "GC_MODIFIER_SYMBOL")), (EStr (lit "Sk")));
  ((EName (lit "GC_OTHER_SYMBOL")), (EStr (lit "So")));
  ((EName (lit "GC_INITIAL_PUNCTUATION")), (EStr (lit "Pi")));
  ((EName (lit "GC_FINAL_PUNCTUATION")), (EStr (lit "Pf")))])].
Definition GeneralCategories_env : dict pval := Eval vm_compute in ok_env (exec GeneralCategories_src).
Lemma GeneralCategories_is : exec GeneralCategories_src = Ok GeneralCategories_env.
Proof. vm_cast_no_check (eq_refl (Ok GeneralCategories_env)). Qed.

(** JoiningTypesAndGroups.py:9-232 *)
Definition JoiningTypesAndGroups_src : list stmt := [
  SAssign (lit "U_JT_NON_JOINING") (EInt 0);
  SAssign (lit "U_JT_JOIN_CAUSING") (EInt 1);
  SAssign (lit "U_JT_DUAL_JOINING") (EInt 2);
  SAssign (lit "U_JT_LEFT_JOINING") (EInt 3);
  SAssign (lit "U_JT_RIGHT_JOINING") (EInt 4);
  SAssign (lit "U_JT_TRANSPARENT") (EInt 5);
  SAssign (lit "joiningTypes") (EDict [
  ((EName (lit "U_JT_NON_JOINING")), (EStr (lit "U")));
  ((EName (lit "U_JT_JOIN_CAUSING")), (EStr (lit "C")));
  ((EName (lit "U_JT_DUAL_JOINING")), (EStr (lit "D")));
  ((EName (lit "U_JT_LEFT_JOINING")), (EStr (lit "L")));
  ((EName (lit "U_JT_RIGHT_JOINING")), (EStr (lit "R")));
  ((EName (lit "U_JT_TRANSPARENT")), (EStr (lit "T")))]);
  SAssign (lit "U_JG_NO_JOINING_GROUP") (EInt 0);
  SAssign (lit "U_JG_AIN") (EInt 1);
  SAssign (lit "U_JG_ALAPH") (EInt 2);
  SAssign (lit "U_JG_ALEF") (EInt 3);
  SAssign (lit "U_JG_BEH") (EInt 4);
  SAssign (lit "U_JG_BETH") (EInt 5);
  SAssign (lit "U_JG_DAL") (EInt 6);
  SAssign (lit "U_JG_DALATH_RISH") (EInt 7);
  SAssign (lit "U_JG_E") (EInt 8);
  SAssign (lit "U_JG_FEH") (EInt 9);
  SAssign (lit "U_JG_FINAL_SEMKATH") (EInt 10);
  SAssign (lit "U_JG_GAF") (EInt 11);
  SAssign (lit "U_JG_GAMAL") (EInt 12);
  SAssign (lit "U_JG_HAH") (EInt 13);
  SAssign (lit "U_JG_TEH_MARBUTA_GOAL") (EInt 14);
  SAssign (lit "U_JG_HAMZA_ON_HEH_GOAL") (EName (lit "U_JG_TEH_MARBUTA_GOAL"));
  SAssign (lit "U_JG_HE") (EInt 15);
  SAssign (lit "U_JG_HEH") (EInt 16);
  SAssign (lit "U_JG_HEH_GOAL") (EInt 17);
  SAssign (lit "U_JG_HETH") (EInt 18);
  SAssign (lit "U_JG_KAF") (EInt 19);
  SAssign (lit "U_JG_KAPH") (EInt 20);
  SAssign (lit "U_JG_KNOTTED_HEH") (EInt 21);
  SAssign (lit "U_JG_LAM") (EInt 22);
  SAssign (lit "U_JG_LAMADH") (EInt 23);
  SAssign (lit "U_JG_MEEM") (EInt 24);
  SAssign (lit "U_JG_MIM") (EInt 25);
  SAssign (lit "U_JG_NOON") (EInt 26);
  SAssign (lit "U_JG_NUN") (EInt 27);
  SAssign (lit "U_JG_PE") (EInt 28);
  SAssign (lit "U_JG_QAF") (EInt 29);
  SAssign (lit "U_JG_QAPH") (EInt 30);
  SAssign (lit "U_JG_REH") (EInt 31);
  SAssign (lit "U_JG_REVERSED_PE") (EInt 32);
  SAssign (lit "U_JG_SAD") (EInt 33);
  SAssign (lit "U_JG_SADHE") (EInt 34);
  SAssign (lit "U_JG_SEEN") (EInt 35);
  SAssign (lit "U_JG_SEMKATH") (EInt 36);
  SAssign (lit "U_JG_SHIN") (EInt 37);
  SAssign (lit "U_JG_SWASH_KAF") (EInt 38);
  SAssign (lit "U_JG_SYRIAC_WAW") (EInt 39);
  SAssign (lit "U_JG_TAH") (EInt 40);
  SAssign (lit "U_JG_TAW") (EInt 41);
  SAssign (lit "U_JG_TEH_MARBUTA") (EInt 42);
  SAssign (lit "U_JG_TETH") (EInt 43);
  SAssign (lit "U_JG_WAW") (EInt 44);
  SAssign (lit "U_JG_YEH") (EInt 45);
  SAssign (lit "U_JG_YEH_BARREE") (EInt 46);
  SAssign (lit "U_JG_YEH_WITH_TAIL") (EInt 47);
  SAssign (lit "U_JG_YUDH") (EInt 48);
  SAssign (lit "U_JG_YUDH_HE") (EInt 49);
  SAssign (lit "U_JG_ZAIN") (EInt 50);
  SAssign (lit "U_JG_FE") (EInt 51);
  SAssign (lit "U_JG_KHAPH") (EInt 52);
  SAssign (lit "U_JG_ZHAIN") (EInt 53);
  SAssign (lit "U_JG_BURUSHASKI_YEH_BARREE") (EInt 54);
  SAssign (lit "U_JG_FARSI_YEH") (EInt 55);
  SAssign (lit "U_JG_NYA") (EInt 56);
  SAssign (lit "U_JG_ROHINGYA_YEH") (EInt 57);
  SAssign (lit "U_JG_MANICHAEAN_ALEPH") (EInt 58);
  SAssign (lit "U_JG_MANICHAEAN_AYIN") (EInt 59);
  SAssign (lit "U_JG_MANICHAEAN_BETH") (EInt 60);
  SAssign (lit "U_JG_MANICHAEAN_DALETH") (EInt 61);
  SAssign (lit "U_JG_MANICHAEAN_DHAMEDH") (EInt 62);
  SAssign (lit "U_JG_MANICHAEAN_FIVE") (EInt 63);
  SAssign (lit "U_JG_MANICHAEAN_GIMEL") (EInt 64);
  SAssign (lit "U_JG_MANICHAEAN_HETH") (EInt 65);
  SAssign (lit "U_JG_MANICHAEAN_HUNDRED") (EInt 66);
  SAssign (lit "U_JG_MANICHAEAN_KAPH") (EInt 67);
  SAssign (lit "U_JG_MANICHAEAN_LAMEDH") (EInt 68);
  SAssign (lit "U_JG_MANICHAEAN_MEM") (EInt 69);
  SAssign (lit "U_JG_MANICHAEAN_NUN") (EInt 70);
  SAssign (lit "U_JG_MANICHAEAN_ONE") (EInt 71);
  SAssign (lit "U_JG_MANICHAEAN_PE") (EInt 72);
  SAssign (lit "U_JG_MANICHAEAN_QOPH") (EInt 73);
  SAssign (lit "U_JG_MANICHAEAN_RESH") (EInt 74);
  SAssign (lit "U_JG_MANICHAEAN_SADHE") (EInt 75);
  SAssign (lit "U_JG_MANICHAEAN_SAMEKH") (EInt 76);
  SAssign (lit "U_JG_MANICHAEAN_TAW") (EInt 77);
  SAssign (lit "U_JG_MANICHAEAN_TEN") (EInt 78);
  SAssign (lit "U_JG_MANICHAEAN_TETH") (EInt 79);
  SAssign (lit "U_JG_MANICHAEAN_THAMEDH") (EInt 80);
  SAssign (lit "U_JG_MANICHAEAN_TWENTY") (EInt 81);
  SAssign (lit "U_JG_MANICHAEAN_WAW") (EInt 82);
  SAssign (lit "U_JG_MANICHAEAN_YODH") (EInt 83);
  SAssign (lit "U_JG_MANICHAEAN_ZAYIN") (EInt 84);
  SAssign (lit "U_JG_STRAIGHT_WAW") (EInt 85);
  SAssign (lit "U_JG_AFRICAN_FEH") (EInt 86);
  SAssign (lit "U_JG_AFRICAN_NOON") (EInt 87);
  SAssign (lit "U_JG_AFRICAN_QAF") (EInt 88);
  SAssign (lit "U_JG_MALAYALAM_BHA") (EInt 89);
  SAssign (lit "U_JG_MALAYALAM_JA") (EInt 90);
  SAssign (lit "U_JG_MALAYALAM_LLA") (EInt 91);
  SAssign (lit "U_JG_MALAYALAM_LLLA") (EInt 92);
  SAssign (lit "U_JG_MALAYALAM_NGA") (EInt 93);
  SAssign (lit "U_JG_MALAYALAM_NNA") (EInt 94);
  SAssign (lit "U_JG_MALAYALAM_NNNA") (EInt 95);
  SAssign (lit "U_JG_MALAYALAM_NYA") (EInt 96);
  SAssign (lit "U_JG_MALAYALAM_RA") (EInt 97);
  SAssign (lit "U_JG_MALAYALAM_SSA") (EInt 98);
  SAssign (lit "U_JG_MALAYALAM_TTA") (EInt 99);
  SAssign (lit "U_JG_HANIFI_ROHINGYA_KINNA_YA") (EInt 100);
  SAssign (lit "U_JG_HANIFI_ROHINGYA_PA") (EInt 101);
  SAssign (lit "joiningGroups") (EDict [
  ((EName (lit "U_JG_NO_JOINING_GROUP")), (EStr (lit "No Joining Group")));
  ((EName (lit "U_JG_AIN")), (EStr (lit "Ain")));
  ((EName (lit "U_JG_ALAPH")), (EStr (lit "Alaph")));
  ((EName (lit "U_JG_ALEF")), (EStr (lit "Alef")));
  ((EName (lit "U_JG_BEH")), (EStr (lit "Beh")));
  ((EName (lit "U_JG_BETH")), (EStr (lit "Beth")));
  ((EName (lit "U_JG_DAL")), (EStr (lit "Dal")));
  ((EName (lit "U_JG_DALATH_RISH")), (EStr (lit "Dalath Rish")));
  ((EName (lit "U_JG_E")), (EStr (lit "E")));
  ((EName (lit "U_JG_FEH")), (EStr (lit "Feh")));
  ((EName (lit "U_JG_FINAL_SEMKATH")), (EStr (lit "Final Semkath")));
  ((EName (lit "U_JG_GAF")), (EStr (lit "Gaf")));
  ((EName (lit "U_JG_GAMAL")), (EStr (lit "Gamal")));
  ((EName (lit "U_JG_HAH")), (EStr (lit "Hah")));
  ((EName (lit "U_JG_TEH_MARBUTA_GOAL")), (EStr (lit "Teh Marbuta Goal")));
  ((EName (lit "U_JG_HE")), (EStr (lit "He")));
  ((EName (lit "U_JG_HEH")), (EStr (lit "Heh")));
  ((EName (lit "U_JG_HEH_GOAL")), (EStr (lit "Heh Goal")));
  ((EName (lit "U_JG_HETH")), (EStr (lit "Heth")));
  ((EName (lit "U_JG_KAF")), (EStr (lit "Kaf")));
  ((EName (lit "U_JG_KAPH")), (EStr (lit "Kaph")));
  ((EName (lit "U_JG_KNOTTED_HEH")), (EStr (lit "Knotted Heh")));
  ((EName (lit "U_JG_LAM")), (EStr (lit "Lam")));
  ((EName (lit "U_JG_LAMADH")), (EStr (lit "Lamadh")));
  ((EName (lit "U_JG_MEEM")), (EStr (lit "Meem")));
  ((EName (lit "U_JG_MIM")), (EStr (lit "Mim")));
  ((EName (lit "U_JG_NOON")), (EStr (lit "Noon")));
  ((EName (lit "U_JG_NUN")), (EStr (lit "Nun")));
  ((EName (lit "U_JG_PE")), (EStr (lit "Pe")));
  ((EName (lit "U_JG_QAF")), (EStr (lit "Qaf")));
  ((EName (lit "U_JG_QAPH")), (EStr (lit "Qaph")));
  ((EName (lit "U_JG_REH")), (EStr (lit "Reh")));
  ((EName (lit "U_JG_REVERSED_PE")), (EStr (lit "Reversed Pe")));
  ((EName (lit "U_JG_SAD")), (EStr (lit "Sad")));
  ((EName (lit "U_JG_SADHE")), (EStr (lit "Sadhe")));
  ((EName (lit "U_JG_SEEN")), (EStr (lit "Seen")));
  ((EName (lit "U_JG_SEMKATH")), (EStr (lit "Semkath")));
  ((EName (lit "U_JG_SHIN")), (EStr (lit "Shin")));
  ((EName (lit "U_JG_SWASH_KAF")), (EStr (lit "Swash Kaf")));
  ((EName (lit "U_JG_SYRIAC_WAW")), (EStr (lit "Syriac Waw")));
  ((EName (lit "U_JG_TAH")), (EStr (lit "Tah")));
  ((EName (lit "U_JG_TAW")), (EStr (lit "Taw")));
  ((EName (lit "U_JG_TEH_MARBUTA")), (EStr (lit "Teh Marbuta")));
  ((EName (lit "U_JG_TETH")), (EStr (lit "Teth")));
  ((EName (lit "U_JG_WAW")), (EStr (lit "Waw")));
  ((EName (lit "U_JG_YEH")), (EStr (lit "Yeh")));
  ((EName (lit "U_JG_YEH_BARREE")), (EStr (lit "Yeh Barree")));
  ((EName (lit "U_JG_YEH_WITH_TAIL")), (EStr (lit "Yeh With Tail")));
  ((EName (lit "U_JG_YUDH")), (EStr (lit "Yudh")));
  ((EName (lit "U_JG_YUDH_HE")), (EStr (lit "Yudh He")));
  ((EName (lit "U_JG_ZAIN")), (EStr (lit "Zain")));
  ((EName (lit "U_JG_FE")), (EStr (lit "Fe")));
  ((EName (lit "U_JG_KHAPH")), (EStr (lit "Khaph")));
  ((EName (lit "U_JG_ZHAIN")), (EStr (lit "Zhain")));
  ((EName (lit "U_JG_BURUSHASKI_YEH_BARREE")), (EStr (lit "Burushaski Yeh Barree")));
  ((EName (lit "U_JG_FARSI_YEH")), (EStr (lit "Farsi Yeh")));
  ((EName (lit "U_JG_NYA")), (EStr (lit "Nya")));
  ((EName (lit "U_JG_ROHINGYA_YEH")), (EStr (lit "Rohingya Yeh")));
  ((EName (lit "U_JG_MANICHAEAN_ALEPH")), (EStr (lit "Manichaean Aleph")));
  ((EName (lit "U_JG_MANICHAEAN_AYIN")), (EStr (lit "Manichaean Ayin")));
  ((EName (lit "U_JG_MANICHAEAN_BETH")), (EStr (lit "Manichaean Beth")));
  ((EName (lit "U_JG_MANICHAEAN_DALETH")), (EStr (lit "Manichaean Daleth")));
  ((EName (lit "U_JG_MANICHAEAN_DHAMEDH")), (EStr (lit "Manichaean Dhamedh")));
  ((EName (lit "U_JG_MANICHAEAN_FIVE")), (EStr (lit "Manichaean Five")));
  ((EName (lit "U_JG_MANICHAEAN_GIMEL")), (EStr (lit "Manichaean Gimel")));
  ((EName (lit "U_JG_MANICHAEAN_HETH")), (EStr (lit "Manichaean Heth")));
  ((EName (lit "U_JG_MANICHAEAN_HUNDRED")), (EStr (lit "Manichaean Hundred")));
  ((EName (lit "U_JG_MANICHAEAN_KAPH")), (EStr (lit "Manichaean Kaph")));
  ((EName (lit "U_JG_MANICHAEAN_LAMEDH")), (EStr (lit "Manichaean Lamedh")));
  ((EName (lit "U_JG_MANICHAEAN_MEM")), (EStr (lit "Manichaean Mem")));
  ((EName (lit "U_JG_MANICHAEAN_NUN")), (EStr (lit "Manichaean Nun")));
  ((EName (lit "U_JG_MANICHAEAN_ONE")), (EStr (lit "Manichaean One")));
  ((EName (lit "U_JG_MANICHAEAN_PE")), (EStr (lit "Manichaean Pe")));
  ((EName (lit "U_JG_MANICHAEAN_QOPH")), (EStr (lit "Manichaean Qoph")));
  ((EName (lit "U_JG_MANICHAEAN_RESH")), (EStr (lit "Manichaean Resh")));
  ((EName (lit "U_JG_MANICHAEAN_SADHE")), (EStr (lit "Manichaean Sadhe")));
  ((EName (lit "U_JG_MANICHAEAN_SAMEKH")), (EStr (lit "Manichaean Samekh")));
  ((EName (lit "U_JG_MANICHAEAN_TAW")), (EStr (lit "Manichaean Taw")));
  ((EName (lit "U_JG_MANICHAEAN_TEN")), (EStr (lit "Manichaean Ten")));
  ((EName (lit "U_JG_MANICHAEAN_TETH")), (EStr (lit "Manichaean Teth")));
  ((EName (lit "U_JG_MANICHAEAN_THAMEDH")), (EStr (lit "Manichaean Thamedh")));
  ((EName (lit "U_JG_MANICHAEAN_TWENTY")), (EStr (lit "Manichaean Twenty")));
  ((EName (lit "U_JG_MANICHAEAN_WAW")), (EStr (lit "Manichaean Waw")));
  ((EName (lit "U_JG_MANICHAEAN_YODH")), (EStr (lit "Manichaean Yodh")));
  ((EName (lit "U_JG_MANICHAEAN_ZAYIN")), (EStr (lit "Manichaean Zayin")));
  ((EName (lit "U_JG_STRAIGHT_WAW")), (EStr (lit "Straight Waw")));
  ((EName (lit "U_JG_AFRICAN_FEH")), (EStr (lit "African Feh")));
  ((EName (lit "U_JG_AFRICAN_NOON")), (EStr (lit "African Noon")));
  ((EName (lit "U_JG_AFRICAN_QAF")), (EStr (lit "African Qaf")));
  ((EName (lit "U_JG_MALAYALAM_BHA")), (EStr (lit "Malayalam Bha")));
  ((EName (lit "U_JG_MALAYALAM_JA")), (EStr (lit "Malayalam Ja")));
  ((EName (lit "U_JG_MALAYALAM_LLA")), (EStr (lit "Malayalam Lla")));
  ((EName (lit "U_JG_MALAYALAM_LLLA")), (EStr (lit "Malayalam Llla")));
  ((EName (lit "U_JG_MALAYALAM_NGA")), (EStr (lit "Malayalam Nga")));
  ((EName (lit "U_JG_MALAYALAM_NNA")), (EStr (lit "Malayalam Nna")));
  ((EName (lit "U_JG_MALAYALAM_NNNA")), (EStr (lit "Malayalam Nnna")));
  ((EName (lit "U_JG_MALAYALAM_NYA")), (EStr (lit "Malayalam Nya")));
  ((EName (lit "U_JG_MALAYALAM_RA")), (EStr (lit "Malayalam Ra")));
  ((EName (lit "U_JG_MALAYALAM_SSA")), (EStr (lit "Malayalam Ssa")));
  ((EName (lit "U_JG_MALAYALAM_TTA")), (EStr (lit "Malayalam Tta")));
  ((EName (lit "U_JG_HANIFI_ROHINGYA_KINNA_YA")), (EStr (lit "Hanifi Rohingya Kinna Ya")));
  ((EName (lit "U_JG_HANIFI_ROHINGYA_PA")), (EStr (lit "Hanifi Rohingya Pa")))])].
Definition JoiningTypesAndGroups_env : dict pval := Eval vm_compute in ok_env (exec JoiningTypesAndGroups_src).
Lemma JoiningTypesAndGroups_is : exec JoiningTypesAndGroups_src = Ok JoiningTypesAndGroups_env.
Proof. vm_cast_no_check (eq_refl (Ok JoiningTypesAndGroups_env)). Qed.

(** LayoutTypes.py:10-134 *)
Definition LayoutTypes_src : list stmt := [
  SAssign (lit "U_INPC_NA") (EInt 0);
  SAssign (lit "U_INPC_BOTTOM") (EInt 1);
  SAssign (lit "U_INPC_BOTTOM_AND_LEFT") (EInt 2);
  SAssign (lit "U_INPC_BOTTOM_AND_RIGHT") (EInt 3);
  SAssign (lit "U_INPC_LEFT") (EInt 4);
  SAssign (lit "U_INPC_LEFT_AND_RIGHT") (EInt 5);
  SAssign (lit "U_INPC_OVERSTRUCK") (EInt 6);
  SAssign (lit "U_INPC_RIGHT") (EInt 7);
  SAssign (lit "U_INPC_TOP") (EInt 8);
  SAssign (lit "U_INPC_TOP_AND_BOTTOM") (EInt 9);
  SAssign (lit "U_INPC_TOP_AND_BOTTOM_AND_RIGHT") (EInt 10);
  SAssign (lit "U_INPC_TOP_AND_LEFT") (EInt 11);
  SAssign (lit "U_INPC_TOP_AND_LEFT_AND_RIGHT") (EInt 12);
  SAssign (lit "U_INPC_TOP_AND_RIGHT") (EInt 13);
  SAssign (lit "U_INPC_VISUAL_ORDER_LEFT") (EInt 14);
  SAssign (lit "U_INPC_TOP_AND_BOTTOM_AND_LEFT") (EInt 15);
  SAssign (lit "U_INSC_OTHER") (EInt 0);
  SAssign (lit "U_INSC_AVAGRAHA") (EInt 1);
  SAssign (lit "U_INSC_BINDU") (EInt 2);
  SAssign (lit "U_INSC_BRAHMI_JOINING_NUMBER") (EInt 3);
  SAssign (lit "U_INSC_CANTILLATION_MARK") (EInt 4);
  SAssign (lit "U_INSC_CONSONANT") (EInt 5);
  SAssign (lit "U_INSC_CONSONANT_DEAD") (EInt 6);
  SAssign (lit "U_INSC_CONSONANT_FINAL") (EInt 7);
  SAssign (lit "U_INSC_CONSONANT_HEAD_LETTER") (EInt 8);
  SAssign (lit "U_INSC_CONSONANT_INITIAL_POSTFIXED") (EInt 9);
  SAssign (lit "U_INSC_CONSONANT_KILLER") (EInt 10);
  SAssign (lit "U_INSC_CONSONANT_MEDIAL") (EInt 11);
  SAssign (lit "U_INSC_CONSONANT_PLACEHOLDER") (EInt 12);
  SAssign (lit "U_INSC_CONSONANT_PRECEDING_REPHA") (EInt 13);
  SAssign (lit "U_INSC_CONSONANT_PREFIXED") (EInt 14);
  SAssign (lit "U_INSC_CONSONANT_SUBJOINED") (EInt 15);
  SAssign (lit "U_INSC_CONSONANT_SUCCEEDING_REPHA") (EInt 16);
  SAssign (lit "U_INSC_CONSONANT_WITH_STACKER") (EInt 17);
  SAssign (lit "U_INSC_GEMINATION_MARK") (EInt 18);
  SAssign (lit "U_INSC_INVISIBLE_STACKER") (EInt 19);
  SAssign (lit "U_INSC_JOINER") (EInt 20);
  SAssign (lit "U_INSC_MODIFYING_LETTER") (EInt 21);
  SAssign (lit "U_INSC_NON_JOINER") (EInt 22);
  SAssign (lit "U_INSC_NUKTA") (EInt 23);
  SAssign (lit "U_INSC_NUMBER") (EInt 24);
  SAssign (lit "U_INSC_NUMBER_JOINER") (EInt 25);
  SAssign (lit "U_INSC_PURE_KILLER") (EInt 26);
  SAssign (lit "U_INSC_REGISTER_SHIFTER") (EInt 27);
  SAssign (lit "U_INSC_SYLLABLE_MODIFIER") (EInt 28);
  SAssign (lit "U_INSC_TONE_LETTER") (EInt 29);
  SAssign (lit "U_INSC_TONE_MARK") (EInt 30);
  SAssign (lit "U_INSC_VIRAMA") (EInt 31);
  SAssign (lit "U_INSC_VISARGA") (EInt 32);
  SAssign (lit "U_INSC_VOWEL") (EInt 33);
  SAssign (lit "U_INSC_VOWEL_DEPENDENT") (EInt 34);
  SAssign (lit "U_INSC_VOWEL_INDEPENDENT") (EInt 35);
  SAssign (lit "U_VO_ROTATED") (EInt 0);
  SAssign (lit "U_VO_TRANSFORMED_ROTATED") (EInt 1);
  SAssign (lit "U_VO_TRANSFORMED_UPRIGHT") (EInt 2);
  SAssign (lit "U_VO_UPRIGHT") (EInt 3);
  SAssign (lit "inpcNames") (EDict [
  ((EName (lit "U_INPC_NA")), (EStr (lit "NA")));
  ((EName (lit "U_INPC_BOTTOM")), (EStr (lit "Bottom")));
  ((EName (lit "U_INPC_BOTTOM_AND_LEFT")), (EStr (lit "Bottom_And_Left")));
  ((EName (lit "U_INPC_BOTTOM_AND_RIGHT")), (EStr (lit "Bottom_And_Right")));
  ((EName (lit "U_INPC_LEFT")), (EStr (lit "Left")));
  ((EName (lit "U_INPC_LEFT_AND_RIGHT")), (EStr (lit "Left_And_Right")));
  ((EName (lit "U_INPC_OVERSTRUCK")), (EStr (lit "Overstruck")));
  ((EName (lit "U_INPC_RIGHT")), (EStr (lit "Right")));
  ((EName (lit "U_INPC_TOP")), (EStr (lit "Top")));
  ((EName (lit "U_INPC_TOP_AND_BOTTOM")), (EStr (lit "Top_And_Bottom")));
  ((EName (lit "U_INPC_TOP_AND_BOTTOM_AND_RIGHT")), (EStr (lit "Top_And_Bottom_And_Right")));
  ((EName (lit "U_INPC_TOP_AND_LEFT")), (EStr (lit "Top_And_Left")));
  ((EName (lit "U_INPC_TOP_AND_LEFT_AND_RIGHT")), (EStr (lit "Top_And_Left_And_Right")));
  ((EName (lit "U_INPC_TOP_AND_RIGHT")), (EStr (lit "Top_And_Right")));
  ((EName (lit "U_INPC_VISUAL_ORDER_LEFT")), (EStr (lit "Visual_Order_Left")));
  ((EName (lit "U_INPC_TOP_AND_BOTTOM_AND_LEFT")), (EStr (lit "Top_And_Bottom_And_Left")))]);
  SAssign (lit "inscNames") (EDict [
  ((EName (lit "U_INSC_OTHER")), (EStr (lit "Other")));
  ((EName (lit "U_INSC_AVAGRAHA")), (EStr (lit "Avagraha")));
  ((EName (lit "U_INSC_BINDU")), (EStr (lit "Bindu")));
  ((EName (lit "U_INSC_BRAHMI_JOINING_NUMBER")), (EStr (lit "Brahmi_Joining_Number")));
  ((EName (lit "U_INSC_CANTILLATION_MARK")), (EStr (lit "Cantillation_Mark")));
  ((EName (lit "U_INSC_CONSONANT")), (EStr (lit "Consonant")));
  ((EName (lit "U_INSC_CONSONANT_DEAD")), (EStr (lit "Consonant_Dead")));
  ((EName (lit "U_INSC_CONSONANT_FINAL")), (EStr (lit "Consonant_Final")));
  ((EName (lit "U_INSC_CONSONANT_HEAD_LETTER")), (EStr (lit "Consonant_Head_Letter")));
  ((EName (lit "U_INSC_CONSONANT_INITIAL_POSTFIXED")), (EStr (lit "Consonant_Initial_Postfixed")));
  ((EName (lit "U_INSC_CONSONANT_KILLER")), (EStr (lit "Consonant_Killer")));
  ((EName (lit "U_INSC_CONSONANT_MEDIAL")), (EStr (lit "Consonant_Medial")));
  ((EName (lit "U_INSC_CONSONANT_PLACEHOLDER")), (EStr (lit "Consonant_Placeholder")));
  ((EName (lit "U_INSC_CONSONANT_PRECEDING_REPHA")), (EStr (lit "Consonant_Preceding_Repha")));
  ((EName (lit "U_INSC_CONSONANT_PREFIXED")), (EStr (lit "Consonant_Prefixed")));
  ((EName (lit "U_INSC_CONSONANT_SUBJOINED")), (EStr (lit "Consonant_Subjoined")));
  ((EName (lit "U_INSC_CONSONANT_SUCCEEDING_REPHA")), (EStr (lit "Consonant_Succeeding_Repha")));
  ((EName (lit "U_INSC_CONSONANT_WITH_STACKER")), (EStr (lit "Consonant_With_Stacker")));
  ((EName (lit "U_INSC_GEMINATION_MARK")), (EStr (lit "Gemination_Mark")));
  ((EName (lit "U_INSC_INVISIBLE_STACKER")), (EStr (lit "Invisible_Stacker")));
  ((EName (lit "U_INSC_JOINER")), (EStr (lit "Joiner")));
  ((EName (lit "U_INSC_MODIFYING_LETTER")), (EStr (lit "Modifying_Letter")));
  ((EName (lit "U_INSC_NON_JOINER")), (EStr (lit "Non_Joiner")));
  ((EName (lit "U_INSC_NUKTA")), (EStr (lit "Nukta")));
  ((EName (lit "U_INSC_NUMBER")), (EStr (lit "Number")));
  ((EName (lit "U_INSC_NUMBER_JOINER")), (EStr (lit "Number_Joiner")));
  ((EName (lit "U_INSC_PURE_KILLER")), (EStr (lit "Pure_Killer")));
  ((EName (lit "U_INSC_REGISTER_SHIFTER")), (EStr (lit "Register_Shifter")));
  ((EName (lit "U_INSC_SYLLABLE_MODIFIER")), (EStr (lit "Syllable_Modifier")));
  ((EName (lit "U_INSC_TONE_LETTER")), (EStr (lit "Tone_Letter")));
  ((EName (lit "U_INSC_TONE_MARK")), (EStr (lit "Tone_Mark")));
  ((EName (lit "U_INSC_VIRAMA")), (EStr (lit "Virama")));
  ((EName (lit "U_INSC_VISARGA")), (EStr (lit "Visarga")));
  ((EName (lit "U_INSC_VOWEL")), (EStr (lit "Vowel")));
  ((EName (lit "U_INSC_VOWEL_DEPENDENT")), (EStr (lit "Vowel_Dependent")));
  ((EName (lit "U_INSC_VOWEL_INDEPENDENT")), (EStr (lit "Vowel_Independent")))]);
  SAssign (lit "voNames") (EDict [
  ((EName (lit "U_VO_ROTATED")), (EStr (lit "R")));
  ((EName (lit "U_VO_TRANSFORMED_ROTATED")), (EStr (lit "Tr")));
  ((EName (lit "U_VO_TRANSFORMED_UPRIGHT")), (EStr (lit "Tu")));
  ((EName (lit "U_VO_UPRIGHT")), (EStr (lit "U")))])].
Definition LayoutTypes_env : dict pval := Eval vm_compute in ok_env (exec LayoutTypes_src).
Lemma LayoutTypes_is : exec LayoutTypes_src = Ok LayoutTypes_env.
Proof. vm_cast_no_check (eq_refl (Ok LayoutTypes_env)). Qed.

(** Scripts.py:9-430 *)
Definition Scripts_src : list stmt := [
  SAssign (lit "USCRIPT_INVALID_CODE") (ENeg (EInt 1));
  SAssign (lit "USCRIPT_COMMON") (EInt 0);
  SAssign (lit "USCRIPT_INHERITED") (EInt 1);
  SAssign (lit "USCRIPT_ARABIC") (EInt 2);
  SAssign (lit "USCRIPT_ARMENIAN") (EInt 3);
  SAssign (lit "USCRIPT_BENGALI") (EInt 4);
  SAssign (lit "USCRIPT_BOPOMOFO") (EInt 5);
  SAssign (lit "USCRIPT_CHEROKEE") (EInt 6);
  SAssign (lit "USCRIPT_COPTIC") (EInt 7);
  SAssign (lit "USCRIPT_CYRILLIC") (EInt 8);
  SAssign (lit "USCRIPT_DESERET") (EInt 9);
  SAssign (lit "USCRIPT_DEVANAGARI") (EInt 10);
  SAssign (lit "USCRIPT_ETHIOPIC") (EInt 11);
  SAssign (lit "USCRIPT_GEORGIAN") (EInt 12);
  SAssign (lit "USCRIPT_GOTHIC") (EInt 13);
  SAssign (lit "USCRIPT_GREEK") (EInt 14);
  SAssign (lit "USCRIPT_GUJARATI") (EInt 15);
  SAssign (lit "USCRIPT_GURMUKHI") (EInt 16);
  SAssign (lit "USCRIPT_HAN") (EInt 17);
  SAssign (lit "USCRIPT_HANGUL") (EInt 18);
  SAssign (lit "USCRIPT_HEBREW") (EInt 19);
  SAssign (lit "USCRIPT_HIRAGANA") (EInt 20);
  SAssign (lit "USCRIPT_KANNADA") (EInt 21);
  SAssign (lit "USCRIPT_KATAKANA") (EInt 22);
  SAssign (lit "USCRIPT_KHMER") (EInt 23);
  SAssign (lit "USCRIPT_LAO") (EInt 24);
  SAssign (lit "USCRIPT_LATIN") (EInt 25);
  SAssign (lit "USCRIPT_MALAYALAM") (EInt 26);
  SAssign (lit "USCRIPT_MONGOLIAN") (EInt 27);
  SAssign (lit "USCRIPT_MYANMAR") (EInt 28);
  SAssign (lit "USCRIPT_OGHAM") (EInt 29);
  SAssign (lit "USCRIPT_OLD_ITALIC") (EInt 30);
  SAssign (lit "USCRIPT_ORIYA") (EInt 31);
  SAssign (lit "USCRIPT_RUNIC") (EInt 32);
  SAssign (lit "USCRIPT_SINHALA") (EInt 33);
  SAssign (lit "USCRIPT_SYRIAC") (EInt 34);
  SAssign (lit "USCRIPT_TAMIL") (EInt 35);
  SAssign (lit "USCRIPT_TELUGU") (EInt 36);
  SAssign (lit "USCRIPT_THAANA") (EInt 37);
  SAssign (lit "USCRIPT_THAI") (EInt 38);
  SAssign (lit "USCRIPT_TIBETAN") (EInt 39);
  SAssign (lit "USCRIPT_CANADIAN_ABORIGINAL") (EInt 40);
  SAssign (lit "USCRIPT_UCAS") (ETuple [(EName (lit "USCRIPT_CANADIAN_ABORIGINAL"))]);
  SAssign (lit "USCRIPT_YI") (EInt 41);
  SAssign (lit "USCRIPT_TAGALOG") (EInt 42);
  SAssign (lit "USCRIPT_HANUNOO") (EInt 43);
  SAssign (lit "USCRIPT_BUHID") (EInt 44);
  SAssign (lit "USCRIPT_TAGBANWA") (EInt 45);
  SAssign (lit "USCRIPT_BRAILLE") (EInt 46);
  SAssign (lit "USCRIPT_CYPRIOT") (EInt 47);
  SAssign (lit "USCRIPT_LIMBU") (EInt 48);
  SAssign (lit "USCRIPT_LINEAR_B") (EInt 49);
  SAssign (lit "USCRIPT_OSMANYA") (EInt 50);
  SAssign (lit "USCRIPT_SHAVIAN") (EInt 51);
  SAssign (lit "USCRIPT_TAI_LE") (EInt 52);
  SAssign (lit "USCRIPT_UGARITIC") (EInt 53);
  SAssign (lit "USCRIPT_KATAKANA_OR_HIRAGANA") (EInt 54);
  SAssign (lit "USCRIPT_BUGINESE") (EInt 55);
  SAssign (lit "USCRIPT_GLAGOLITIC") (EInt 56);
  SAssign (lit "USCRIPT_KHAROSHTHI") (EInt 57);
  SAssign (lit "USCRIPT_SYLOTI_NAGRI") (EInt 58);
  SAssign (lit "USCRIPT_NEW_TAI_LUE") (EInt 59);
  SAssign (lit "USCRIPT_TIFINAGH") (EInt 60);
  SAssign (lit "USCRIPT_OLD_PERSIAN") (EInt 61);
  SAssign (lit "USCRIPT_BALINESE") (EInt 62);
  SAssign (lit "USCRIPT_BATAK") (EInt 63);
  SAssign (lit "USCRIPT_BLISSYMBOLS") (EInt 64);
  SAssign (lit "USCRIPT_BRAHMI") (EInt 65);
  SAssign (lit "USCRIPT_CHAM") (EInt 66);
  SAssign (lit "USCRIPT_CIRTH") (EInt 67);
  SAssign (lit "USCRIPT_OLD_CHURCH_SLAVONIC_CYRILLIC") (EInt 68);
  SAssign (lit "USCRIPT_DEMOTIC_EGYPTIAN") (EInt 69);
  SAssign (lit "USCRIPT_HIERATIC_EGYPTIAN") (EInt 70);
  SAssign (lit "USCRIPT_EGYPTIAN_HIEROGLYPHS") (EInt 71);
  SAssign (lit "USCRIPT_KHUTSURI") (EInt 72);
  SAssign (lit "USCRIPT_SIMPLIFIED_HAN") (EInt 73);
  SAssign (lit "USCRIPT_TRADITIONAL_HAN") (EInt 74);
  SAssign (lit "USCRIPT_PAHAWH_HMONG") (EInt 75);
  SAssign (lit "USCRIPT_OLD_HUNGARIAN") (EInt 76);
  SAssign (lit "USCRIPT_HARAPPAN_INDUS") (EInt 77);
  SAssign (lit "USCRIPT_JAVANESE") (EInt 78);
  SAssign (lit "USCRIPT_KAYAH_LI") (EInt 79);
  SAssign (lit "USCRIPT_LATIN_FRAKTUR") (EInt 80);
  SAssign (lit "USCRIPT_LATIN_GAELIC") (EInt 81);
  SAssign (lit "USCRIPT_LEPCHA") (EInt 82);
  SAssign (lit "USCRIPT_LINEAR_A") (EInt 83);
  SAssign (lit "USCRIPT_MANDAIC") (EInt 84);
  SAssign (lit "USCRIPT_MANDAEAN") (ETuple [(EName (lit "USCRIPT_MANDAIC"))]);
  SAssign (lit "USCRIPT_MAYAN_HIEROGLYPHS") (EInt 85);
  SAssign (lit "USCRIPT_MEROITIC_HIEROGLYPHS") (EInt 86);
  SAssign (lit "USCRIPT_MEROITIC") (ETuple [(EName (lit "USCRIPT_MEROITIC_HIEROGLYPHS"))]);
  SAssign (lit "USCRIPT_NKO") (EInt 87);
  SAssign (lit "USCRIPT_ORKHON") (EInt 88);
  SAssign (lit "USCRIPT_OLD_PERMIC") (EInt 89);
  SAssign (lit "USCRIPT_PHAGS_PA") (EInt 90);
  SAssign (lit "USCRIPT_PHOENICIAN") (EInt 91);
  SAssign (lit "USCRIPT_MIAO") (EInt 92);
  SAssign (lit "USCRIPT_PHONETIC_POLLARD") (ETuple [(EName (lit "USCRIPT_MIAO"))]);
  SAssign (lit "USCRIPT_RONGORONGO") (EInt 93);
  SAssign (lit "USCRIPT_SARATI") (EInt 94);
  SAssign (lit "USCRIPT_ESTRANGELO_SYRIAC") (EInt 95);
  SAssign (lit "USCRIPT_WESTERN_SYRIAC") (EInt 96);
  SAssign (lit "USCRIPT_EASTERN_SYRIAC") (EInt 97);
  SAssign (lit "USCRIPT_TENGWAR") (EInt 98);
  SAssign (lit "USCRIPT_VAI") (EInt 99);
  SAssign (lit "USCRIPT_VISIBLE_SPEECH") (EInt 100);
  SAssign (lit "USCRIPT_CUNEIFORM") (EInt 101);
  SAssign (lit "USCRIPT_UNWRITTEN_LANGUAGES") (EInt 102);
  SAssign (lit "USCRIPT_UNKNOWN") (EInt 103);
  SAssign (lit "USCRIPT_CARIAN") (EInt 104);
  SAssign (lit "USCRIPT_JAPANESE") (EInt 105);
  SAssign (lit "USCRIPT_LANNA") (EInt 106);
  SAssign (lit "USCRIPT_LYCIAN") (EInt 107);
  SAssign (lit "USCRIPT_LYDIAN") (EInt 108);
  SAssign (lit "USCRIPT_OL_CHIKI") (EInt 109);
  SAssign (lit "USCRIPT_REJANG") (EInt 110);
  SAssign (lit "USCRIPT_SAURASHTRA") (EInt 111);
  SAssign (lit "USCRIPT_SIGN_WRITING") (EInt 112);
  SAssign (lit "USCRIPT_SUNDANESE") (EInt 113);
  SAssign (lit "USCRIPT_MOON") (EInt 114);
  SAssign (lit "USCRIPT_MEITEI_MAYEK") (EInt 115);
  SAssign (lit "USCRIPT_IMPERIAL_ARAMAIC") (EInt 116);
  SAssign (lit "USCRIPT_AVESTAN") (EInt 117);
  SAssign (lit "USCRIPT_CHAKMA") (EInt 118);
  SAssign (lit "USCRIPT_KOREAN") (EInt 119);
  SAssign (lit "USCRIPT_KAITHI") (EInt 120);
  SAssign (lit "USCRIPT_MANICHAEAN") (EInt 121);
  SAssign (lit "USCRIPT_INSCRIPTIONAL_PAHLAVI") (EInt 122);
  SAssign (lit "USCRIPT_PSALTER_PAHLAVI") (EInt 123);
  SAssign (lit "USCRIPT_BOOK_PAHLAVI") (EInt 124);
  SAssign (lit "USCRIPT_INSCRIPTIONAL_PARTHIAN") (EInt 125);
  SAssign (lit "USCRIPT_SAMARITAN") (EInt 126);
  SAssign (lit "USCRIPT_TAI_VIET") (EInt 127);
  SAssign (lit "USCRIPT_MATHEMATICAL_NOTATION") (EInt 128);
  SAssign (lit "USCRIPT_SYMBOLS") (EInt 129);
  SAssign (lit "USCRIPT_BAMUM") (EInt 130);
  SAssign (lit "USCRIPT_LISU") (EInt 131);
  SAssign (lit "USCRIPT_NAKHI_GEBA") (EInt 132);
  SAssign (lit "USCRIPT_OLD_SOUTH_ARABIAN") (EInt 133);
  SAssign (lit "USCRIPT_BASSA_VAH") (EInt 134);
  SAssign (lit "USCRIPT_DUPLOYAN") (EInt 135);
  SAssign (lit "USCRIPT_ELBASAN") (EInt 136);
  SAssign (lit "USCRIPT_GRANTHA") (EInt 137);
  SAssign (lit "USCRIPT_KPELLE") (EInt 138);
  SAssign (lit "USCRIPT_LOMA") (EInt 139);
  SAssign (lit "USCRIPT_MENDE") (EInt 140);
  SAssign (lit "USCRIPT_MEROITIC_CURSIVE") (EInt 141);
  SAssign (lit "USCRIPT_OLD_NORTH_ARABIAN") (EInt 142);
  SAssign (lit "USCRIPT_NABATAEAN") (EInt 143);
  SAssign (lit "USCRIPT_PALMYRENE") (EInt 144);
  SAssign (lit "USCRIPT_KHUDAWADI") (EInt 145);
  SAssign (lit "USCRIPT_SINDHI") (ETuple [(EName (lit "USCRIPT_KHUDAWADI"))]);
  SAssign (lit "USCRIPT_WARANG_CITI") (EInt 146);
  SAssign (lit "USCRIPT_AFAKA") (EInt 147);
  SAssign (lit "USCRIPT_JURCHEN") (EInt 148);
  SAssign (lit "USCRIPT_MRO") (EInt 149);
  SAssign (lit "USCRIPT_NUSHU") (EInt 150);
  SAssign (lit "USCRIPT_SHARADA") (EInt 151);
  SAssign (lit "USCRIPT_SORA_SOMPENG") (EInt 152);
  SAssign (lit "USCRIPT_TAKRI") (EInt 153);
  SAssign (lit "USCRIPT_TANGUT") (EInt 154);
  SAssign (lit "USCRIPT_WOLEAI") (EInt 155);
  SAssign (lit "USCRIPT_ANATOLIAN_HIEROGLYPHS") (EInt 156);
  SAssign (lit "USCRIPT_KHOJKI") (EInt 157);
  SAssign (lit "USCRIPT_TIRHUTA") (EInt 158);
  SAssign (lit "USCRIPT_CAUCASIAN_ALBANIAN") (EInt 159);
  SAssign (lit "USCRIPT_MAHAJANI") (EInt 160);
  SAssign (lit "USCRIPT_AHOM") (EInt 161);
  SAssign (lit "USCRIPT_HATRAN") (EInt 162);
  SAssign (lit "USCRIPT_MODI") (EInt 163);
  SAssign (lit "USCRIPT_MULTANI") (EInt 164);
  SAssign (lit "USCRIPT_PAU_CIN_HAU") (EInt 165);
  SAssign (lit "USCRIPT_SIDDHAM") (EInt 166);
  SAssign (lit "USCRIPT_ADLAM") (EInt 167);
  SAssign (lit "USCRIPT_BHAIKSUKI") (EInt 168);
  SAssign (lit "USCRIPT_MARCHEN") (EInt 169);
  SAssign (lit "USCRIPT_NEWA") (EInt 170);
  SAssign (lit "USCRIPT_OSAGE") (EInt 171);
  SAssign (lit "USCRIPT_HAN_WITH_BOPOMOFO") (EInt 172);
  SAssign (lit "USCRIPT_JAMO") (EInt 173);
  SAssign (lit "USCRIPT_SYMBOLS_EMOJI") (EInt 174);
  SAssign (lit "USCRIPT_MASARAM_GONDI") (EInt 175);
  SAssign (lit "USCRIPT_SOYOMBO") (EInt 176);
  SAssign (lit "USCRIPT_ZANABAZAR_SQUARE") (EInt 177);
  SAssign (lit "USCRIPT_DOGRA") (EInt 178);
  SAssign (lit "USCRIPT_GUNJALA_GONDI") (EInt 179);
  SAssign (lit "USCRIPT_MAKASAR") (EInt 180);
  SAssign (lit "USCRIPT_MEDEFAIDRIN") (EInt 181);
  SAssign (lit "USCRIPT_HANIFI_ROHINGYA") (EInt 182);
  SAssign (lit "USCRIPT_SOGDIAN") (EInt 183);
  SAssign (lit "USCRIPT_OLD_SOGDIAN") (EInt 184);
  SAssign (lit "USCRIPT_ELYMAIC") (EInt 185);
  SAssign (lit "USCRIPT_NYIAKENG_PUACHUE_HMONG") (EInt 186);
  SAssign (lit "USCRIPT_NANDINAGARI") (EInt 187);
  SAssign (lit "USCRIPT_WANCHO") (EInt 188);
  SAssign (lit "USCRIPT_CHORASMIAN") (EInt 189);
  SAssign (lit "USCRIPT_DIVES_AKURU") (EInt 190);
  SAssign (lit "USCRIPT_KHITAN_SMALL_SCRIPT") (EInt 191);
  SAssign (lit "USCRIPT_YEZIDI") (EInt 192);
  SAssign (lit "USCRIPT_CODE_LIMIT") (EInt 193);
  SAssign (lit "scriptCodes") (EDict [
  ((EName (lit "USCRIPT_COMMON")), (EStr (lit "Zyyy")));
  ((EName (lit "USCRIPT_INHERITED")), (EStr (lit "Zinh")));
  ((EName (lit "USCRIPT_ARABIC")), (EStr (lit "Arab")));
  ((EName (lit "USCRIPT_ARMENIAN")), (EStr (lit "Armn")));
  ((EName (lit "USCRIPT_BENGALI")), (EStr (lit "Beng")));
  ((EName (lit "USCRIPT_BOPOMOFO")), (EStr (lit "Bopo")));
  ((EName (lit "USCRIPT_CHEROKEE")), (EStr (lit "Cher")));
  ((EName (lit "USCRIPT_COPTIC")), (EStr (lit "Copt")));
  ((EName (lit "USCRIPT_CYRILLIC")), (EStr (lit "Cyrl")));
  ((EName (lit "USCRIPT_DESERET")), (EStr (lit "Dsrt")));
  ((EName (lit "USCRIPT_DEVANAGARI")), (EStr (lit "Deva")));
  ((EName (lit "USCRIPT_ETHIOPIC")), (EStr (lit "Ethi")));
  ((EName (lit "USCRIPT_GEORGIAN")), (EStr (lit "Geor")));
  ((EName (lit "USCRIPT_GOTHIC")), (EStr (lit "Goth")));
  ((EName (lit "USCRIPT_GREEK")), (EStr (lit "Grek")));
  ((EName (lit "USCRIPT_GUJARATI")), (EStr (lit "Gujr")));
  ((EName (lit "USCRIPT_GURMUKHI")), (EStr (lit "Guru")));
  ((EName (lit "USCRIPT_HAN")), (EStr (lit "Hani")));
  ((EName (lit "USCRIPT_HANGUL")), (EStr (lit "Hang")));
  ((EName (lit "USCRIPT_HEBREW")), (EStr (lit "Hebr")));
  ((EName (lit "USCRIPT_HIRAGANA")), (EStr (lit "Hira")));
  ((EName (lit "USCRIPT_KANNADA")), (EStr (lit "Knda")));
  ((EName (lit "USCRIPT_KATAKANA")), (EStr (lit "Kana")));
  ((EName (lit "USCRIPT_KHMER")), (EStr (lit "Khmr")));
  ((EName (lit "USCRIPT_LAO")), (EStr (lit "Laoo")));
  ((EName (lit "USCRIPT_LATIN")), (EStr (lit "Latn")));
  ((EName (lit "USCRIPT_MALAYALAM")), (EStr (lit "Mlym")));
  ((EName (lit "USCRIPT_MONGOLIAN")), (EStr (lit "Mong")));
  ((EName (lit "USCRIPT_MYANMAR")), (EStr (lit "Mymr")));
  ((EName (lit "USCRIPT_OGHAM")), (EStr (lit "Ogam")));
  ((EName (lit "USCRIPT_OLD_ITALIC")), (EStr (lit "Ital")));
  ((EName (lit "USCRIPT_ORIYA")), (EStr (lit "Orya")));
  ((EName (lit "USCRIPT_RUNIC")), (EStr (lit "Runr")));
  ((EName (lit "USCRIPT_SINHALA")), (EStr (lit "Sinh")));
  ((EName (lit "USCRIPT_SYRIAC")), (EStr (lit "Syrc")));
  ((EName (lit "USCRIPT_TAMIL")), (EStr (lit "Taml")));
  ((EName (lit "USCRIPT_TELUGU")), (EStr (lit "Telu")));
  ((EName (lit "USCRIPT_THAANA")), (EStr (lit "Thaa")));
  ((EName (lit "USCRIPT_THAI")), (EStr (lit "Thai")));
  ((EName (lit "USCRIPT_TIBETAN")), (EStr (lit "Tibt")));
  ((EName (lit "USCRIPT_CANADIAN_ABORIGINAL")), (EStr (lit "Cans")));
  ((EName (lit "USCRIPT_UCAS")), (EStr (lit "Cans")));
  ((EName (lit "USCRIPT_YI")), (EStr (lit "Yiii")));
  ((EName (lit "USCRIPT_TAGALOG")), (EStr (lit "Tglg")));
  ((EName (lit "USCRIPT_HANUNOO")), (EStr (lit "Hano")));
  ((EName (lit "USCRIPT_BUHID")), (EStr (lit "Buhd")));
  ((EName (lit "USCRIPT_TAGBANWA")), (EStr (lit "Tagb")));
  ((EName (lit "USCRIPT_BRAILLE")), (EStr (lit "Brai")));
  ((EName (lit "USCRIPT_CYPRIOT")), (EStr (lit "Cprt")));
  ((EName (lit "USCRIPT_LIMBU")), (EStr (lit "Limb")));
  ((EName (lit "USCRIPT_LINEAR_B")), (EStr (lit "Linb")));
  ((EName (lit "USCRIPT_OSMANYA")), (EStr (lit "Osma")));
  ((EName (lit "USCRIPT_SHAVIAN")), (EStr (lit "Shaw")));
  ((EName (lit "USCRIPT_TAI_LE")), (EStr (lit "Tale")));
  ((EName (lit "USCRIPT_UGARITIC")), (EStr (lit "Ugar")));
  ((EName (lit "USCRIPT_KATAKANA_OR_HIRAGANA")), (EStr (lit "Hrkt")));
  ((EName (lit "USCRIPT_BUGINESE")), (EStr (lit "Bugi")));
  ((EName (lit "USCRIPT_GLAGOLITIC")), (EStr (lit "Glag")));
  ((EName (lit "USCRIPT_KHAROSHTHI")), (EStr (lit "Khar")));
  ((EName (lit "USCRIPT_SYLOTI_NAGRI")), (EStr (lit "Sylo")));
  ((EName (lit "USCRIPT_NEW_TAI_LUE")), (EStr (lit "Talu")));
  ((EName (lit "USCRIPT_TIFINAGH")), (EStr (lit "Tfng")));
  ((EName (lit "USCRIPT_OLD_PERSIAN")), (EStr (lit "Xpeo")));
  ((EName (lit "USCRIPT_BALINESE")), (EStr (lit "Bali")));
  ((EName (lit "USCRIPT_BATAK")), (EStr (lit "Batk")));
  ((EName (lit "USCRIPT_BLISSYMBOLS")), (EStr (lit "Blis")));
  ((EName (lit "USCRIPT_BRAHMI")), (EStr (lit "Brah")));
  ((EName (lit "USCRIPT_CHAM")), (EStr (lit "Cham")));
  ((EName (lit "USCRIPT_CIRTH")), (EStr (lit "Cirt")));
  ((EName (lit "USCRIPT_OLD_CHURCH_SLAVONIC_CYRILLIC")), (EStr (lit "Cyrs")));
  ((EName (lit "USCRIPT_DEMOTIC_EGYPTIAN")), (EStr (lit "Egyd")));
  ((EName (lit "USCRIPT_HIERATIC_EGYPTIAN")), (EStr (lit "Egyh")));
  ((EName (lit "USCRIPT_EGYPTIAN_HIEROGLYPHS")), (EStr (lit "Egyp")));
  ((EName (lit "USCRIPT_KHUTSURI")), (EStr (lit "Geok")));
  ((EName (lit "USCRIPT_SIMPLIFIED_HAN")), (EStr (lit "Hans")));
  ((EName (lit "USCRIPT_TRADITIONAL_HAN")), (EStr (lit "Hant")));
  ((EName (lit "USCRIPT_PAHAWH_HMONG")), (EStr (lit "Hmng")));
  ((EName (lit "USCRIPT_OLD_HUNGARIAN")), (EStr (lit "Hung")));
  ((EName (lit "USCRIPT_HARAPPAN_INDUS")), (EStr (lit "Inds")));
  ((EName (lit "USCRIPT_JAVANESE")), (EStr (lit "Java")));
  ((EName (lit "USCRIPT_KAYAH_LI")), (EStr (lit "Kali")));
  ((EName (lit "USCRIPT_LATIN_FRAKTUR")), (EStr (lit "Latf")));
  ((EName (lit "USCRIPT_LATIN_GAELIC")), (EStr (lit "Latg")));
  ((EName (lit "USCRIPT_LEPCHA")), (EStr (lit "Lepc")));
  ((EName (lit "USCRIPT_LINEAR_A")), (EStr (lit "Lina")));
  ((EName (lit "USCRIPT_MANDAIC")), (EStr (lit "Mand")));
  ((EName (lit "USCRIPT_MANDAEAN")), (EStr (lit "Mand")));
  ((EName (lit "USCRIPT_MAYAN_HIEROGLYPHS")), (EStr (lit "Maya")));
  ((EName (lit "USCRIPT_MEROITIC_HIEROGLYPHS")), (EStr (lit "Mero")));
  ((EName (lit "USCRIPT_MEROITIC")), (EStr (lit "Mero")));
  ((EName (lit "USCRIPT_NKO")), (EStr (lit "Nkoo")));
  ((EName (lit "USCRIPT_ORKHON")), (EStr (lit "Orkh")));
  ((EName (lit "USCRIPT_OLD_PERMIC")), (EStr (lit "Perm")));
  ((EName (lit "USCRIPT_PHAGS_PA")), (EStr (lit "Phag")));
  ((EName (lit "USCRIPT_PHOENICIAN")), (EStr (lit "Phnx")));
  ((EName (lit "USCRIPT_MIAO")), (EStr (lit "Plrd")));
  ((EName (lit "USCRIPT_PHONETIC_POLLARD")), (EStr (lit "Plrd")));
  ((EName (lit "USCRIPT_RONGORONGO")), (EStr (lit "Roro")));
  ((EName (lit "USCRIPT_SARATI")), (EStr (lit "Sara")));
  ((EName (lit "USCRIPT_ESTRANGELO_SYRIAC")), (EStr (lit "Syre")));
  ((EName (lit "USCRIPT_WESTERN_SYRIAC")), (EStr (lit "Syrj")));
  ((EName (lit "USCRIPT_EASTERN_SYRIAC")), (EStr (lit "Syrn")));
  ((EName (lit "USCRIPT_TENGWAR")), (EStr (lit "Teng")));
  ((EName (lit "USCRIPT_VAI")), (EStr (lit "Vaii")));
  ((EName (lit "USCRIPT_VISIBLE_SPEECH")), (EStr (lit "Visp")));
  ((EName (lit "USCRIPT_CUNEIFORM")), (EStr (lit "Xsux")));
  ((EName (lit "USCRIPT_UNWRITTEN_LANGUAGES")), (EStr (lit "Zxxx")));
  ((EName (lit "USCRIPT_UNKNOWN")), (EStr (lit "Zzzz")));
  ((EName (lit "USCRIPT_CARIAN")), (EStr (lit "Cari")));
  ((EName (lit "USCRIPT_JAPANESE")), (EStr (lit "Jpan")));
  ((EName (lit "USCRIPT_LANNA")), (EStr (lit "Lana")));
  ((EName (lit "USCRIPT_LYCIAN")), (EStr (lit "Lyci")));
  ((EName (lit "USCRIPT_LYDIAN")), (EStr (lit "Lydi")));
  ((EName (lit "USCRIPT_OL_CHIKI")), (EStr (lit "Olck")));
  ((EName (lit "USCRIPT_REJANG")), (EStr (lit "Rjng")));
  ((EName (lit "USCRIPT_SAURASHTRA")), (EStr (lit "Saur")));
  ((EName (lit "USCRIPT_SIGN_WRITING")), (EStr (lit "Sgnw")));
  ((EName (lit "USCRIPT_SUNDANESE")), (EStr (lit "Sund")));
  ((EName (lit "USCRIPT_MOON")), (EStr (lit "Moon")));
  ((EName (lit "USCRIPT_MEITEI_MAYEK")), (EStr (lit "Mtei")));
  ((EName (lit "USCRIPT_IMPERIAL_ARAMAIC")), (EStr (lit "Armi")));
  ((EName (lit "USCRIPT_AVESTAN")), (EStr (lit "Avst")));
  ((EName (lit "USCRIPT_CHAKMA")), (EStr (lit "Cakm")));
  ((EName (lit "USCRIPT_KOREAN")), (EStr (lit "Kore")));
  ((EName (lit "USCRIPT_KAITHI")), (EStr (lit "Kthi")));
  ((EName (lit "USCRIPT_MANICHAEAN")), (EStr (lit "Mani")));
  ((EName (lit "USCRIPT_INSCRIPTIONAL_PAHLAVI")), (EStr (lit "Phli")));
  ((EName (lit "USCRIPT_PSALTER_PAHLAVI")), (EStr (lit "Phlp")));
  ((EName (lit "USCRIPT_BOOK_PAHLAVI")), (EStr (lit "Phlv")));
  ((EName (lit "USCRIPT_INSCRIPTIONAL_PARTHIAN")), (EStr (lit "Prti")));
  ((EName (lit "USCRIPT_SAMARITAN")), (EStr (lit "Samr")));
  ((EName (lit "USCRIPT_TAI_VIET")), (EStr (lit "Tavt")));
  ((EName (lit "USCRIPT_MATHEMATICAL_NOTATION")), (EStr (lit "Zmth")));
  ((EName (lit "USCRIPT_SYMBOLS")), (EStr (lit "Zsym")));
  ((EName (lit "USCRIPT_BAMUM")), (EStr (lit "Bamu")));
  ((EName (lit "USCRIPT_LISU")), (EStr (lit "Lisu")));
  ((EName (lit "USCRIPT_NAKHI_GEBA")), (EStr (lit "Nkgb")));
  ((EName (lit "USCRIPT_OLD_SOUTH_ARABIAN")), (EStr (lit "Sarb")));
  ((EName (lit "USCRIPT_BASSA_VAH")), (EStr (lit "Bass")));
  ((EName (lit "USCRIPT_DUPLOYAN")), (EStr (lit "Dupl")));
  ((EName (lit "USCRIPT_ELBASAN")), (EStr (lit "Elba")));
  ((EName (lit "USCRIPT_GRANTHA")), (EStr (lit "Gran")));
  ((EName (lit "USCRIPT_KPELLE")), (EStr (lit "Kpel")));
  ((EName (lit "USCRIPT_LOMA")), (EStr (lit "Loma")));
  ((EName (lit "USCRIPT_MENDE")), (EStr (lit "Mend")));
  ((EName (lit "USCRIPT_MEROITIC_CURSIVE")), (EStr (lit "Merc")));
  ((EName (lit "USCRIPT_OLD_NORTH_ARABIAN")), (EStr (lit "Narb")));
  ((EName (lit "USCRIPT_NABATAEAN")), (EStr (lit "Nbat")));
  ((EName (lit "USCRIPT_PALMYRENE")), (EStr (lit "Palm")));
  ((EName (lit "USCRIPT_KHUDAWADI")), (EStr (lit "Sind")));
  ((EName (lit "USCRIPT_SINDHI")), (EStr (lit "Sind")));
  ((EName (lit "USCRIPT_WARANG_CITI")), (EStr (lit "Wara")));
  ((EName (lit "USCRIPT_AFAKA")), (EStr (lit "Afak")));
  ((EName (lit "USCRIPT_JURCHEN")), (EStr (lit "Jurc")));
  ((EName (lit "USCRIPT_MRO")), (EStr (lit "Mroo")));
  ((EName (lit "USCRIPT_NUSHU")), (EStr (lit "Nshu")));
  ((EName (lit "USCRIPT_SHARADA")), (EStr (lit "Shrd")));
  ((EName (lit "USCRIPT_SORA_SOMPENG")), (EStr (lit "Sora")));
  ((EName (lit "USCRIPT_TAKRI")), (EStr (lit "Takr")));
  ((EName (lit "USCRIPT_TANGUT")), (EStr (lit "Tang")));
  ((EName (lit "USCRIPT_WOLEAI")), (EStr (lit "Wole")));
  ((EName (lit "USCRIPT_ANATOLIAN_HIEROGLYPHS")), (EStr (lit "Hluw")));
  ((EName (lit "USCRIPT_KHOJKI")), (EStr (lit "Khoj")));
  ((EName (lit "USCRIPT_TIRHUTA")), (EStr (lit "Tirh")));
  ((EName (lit "USCRIPT_CAUCASIAN_ALBANIAN")), (EStr (lit "Aghb")));
  ((EName (lit "USCRIPT_MAHAJANI")), (EStr (lit "Mahj")));
  ((EName (lit "USCRIPT_AHOM")), (EStr (lit "Ahom")));
  ((EName (lit "USCRIPT_HATRAN")), (EStr (lit "Hatr")));
  ((EName (lit "USCRIPT_MODI")), (EStr (lit "Modi")));
  ((EName (lit "USCRIPT_MULTANI")), (EStr (lit "Mult")));
  ((EName (lit "USCRIPT_PAU_CIN_HAU")), (EStr (lit "Pauc")));
  ((EName (lit "USCRIPT_SIDDHAM")), (EStr (lit "Sidd")));
  ((EName (lit "USCRIPT_ADLAM")), (EStr (lit "Adlm")));
  ((EName (lit "USCRIPT_BHAIKSUKI")), (EStr (lit "Bhks")));
  ((EName (lit "USCRIPT_MARCHEN")), (EStr (lit "Marc")));
  ((EName (lit "USCRIPT_NEWA")), (EStr (lit "Newa")));
  ((EName (lit "USCRIPT_OSAGE")), (EStr (lit "Osge")));
  ((EName (lit "USCRIPT_HAN_WITH_BOPOMOFO")), (EStr (lit "Hanb")));
  ((EName (lit "USCRIPT_JAMO")), (EStr (lit "Jamo")));
  ((EName (lit "USCRIPT_SYMBOLS_EMOJI")), (EStr (lit "Zsye")));
  ((EName (lit "USCRIPT_MASARAM_GONDI")), (EStr (lit "Gonm")));
  ((EName (lit "USCRIPT_SOYOMBO")), (EStr (lit "Soyo")));
  ((EName (lit "USCRIPT_ZANABAZAR_SQUARE")), (EStr (lit "Zanb")));
  ((EName (lit "USCRIPT_DOGRA")), (EStr (lit "Dogr")));
  ((EName (lit "USCRIPT_GUNJALA_GONDI")), (EStr (lit "Gong")));
  ((EName (lit "USCRIPT_MAKASAR")), (EStr (lit "Maka")));
  ((EName (lit "USCRIPT_MEDEFAIDRIN")), (EStr (lit "Medf")));
  ((EName (lit "USCRIPT_HANIFI_ROHINGYA")), (EStr (lit "Rohg")));
  ((EName (lit "USCRIPT_SOGDIAN")), (EStr (lit "Sogd")));
  ((EName (lit "USCRIPT_OLD_SOGDIAN")), (EStr (lit "Sogo")));
  ((EName (lit "USCRIPT_ELYMAIC")), (EStr (lit "Elym")));
  ((EName (lit "USCRIPT_NYIAKENG_PUACHUE_HMONG")), (EStr (lit "Hmnp")));
  ((EName (lit "USCRIPT_NANDINAGARI")), (EStr (lit "Nand")));
  ((EName (lit "USCRIPT_WANCHO")), (EStr (lit "Wcho")));
  ((EName (lit "USCRIPT_CHORASMIAN")), (EStr (lit "Chrs")));
  ((EName (lit "USCRIPT_DIVES_AKURU")), (EStr (lit "Diak")));
  ((EName (lit "USCRIPT_KHITAN_SMALL_SCRIPT")), (EStr (lit "Kits")));
  ((EName (lit "USCRIPT_YEZIDI")), (EStr (lit "Yezi")))])].
Definition Scripts_env : dict pval := Eval vm_compute in ok_env (exec Scripts_src).
Lemma Scripts_is : exec Scripts_src = Ok Scripts_env.
Proof. vm_cast_no_check (eq_refl (Ok Scripts_env)). Qed.

(** UCDTypeDictionaries.py:7-911 *)
Definition UCDTypeDictionaries_src : list stmt := [
  SImport uchar_h_env;
  SImport uscript_h_env;
  SAssign (lit "bidiClassNames") (EDict [
  ((EName (lit "U_RIGHT_TO_LEFT_ARABIC")), (EStr (lit "AL")));
  ((EName (lit "U_ARABIC_NUMBER")), (EStr (lit "AN")));
  ((EName (lit "U_BLOCK_SEPARATOR")), (EStr (lit "B")));
  ((EName (lit "U_BOUNDARY_NEUTRAL")), (EStr (lit "BN")));
  ((EName (lit "U_COMMON_NUMBER_SEPARATOR")), (EStr (lit "CS")));
  ((EName (lit "U_EUROPEAN_NUMBER")), (EStr (lit "EN")));
  ((EName (lit "U_EUROPEAN_NUMBER_SEPARATOR")), (EStr (lit "ES")));
  ((EName (lit "U_EUROPEAN_NUMBER_TERMINATOR")), (EStr (lit "ET")));
  ((EName (lit "U_FIRST_STRONG_ISOLATE")), (EStr (lit "FSI")));
  ((EName (lit "U_LEFT_TO_RIGHT")), (EStr (lit "L")));
  ((EName (lit "U_LEFT_TO_RIGHT_EMBEDDING")), (EStr (lit "LRE")));
  ((EName (lit "U_LEFT_TO_RIGHT_ISOLATE")), (EStr (lit "LRI")));
  ((EName (lit "U_LEFT_TO_RIGHT_OVERRIDE")), (EStr (lit "LRO")));
  ((EName (lit "U_DIR_NON_SPACING_MARK")), (EStr (lit "NSM")));
  ((EName (lit "U_OTHER_NEUTRAL")), (EStr (lit "ON")));
  ((EName (lit "U_POP_DIRECTIONAL_FORMAT")), (EStr (lit "PDF")));
  ((EName (lit "U_POP_DIRECTIONAL_ISOLATE")), (EStr (lit "PDI")));
  ((EName (lit "U_RIGHT_TO_LEFT")), (EStr (lit "R")));
  ((EName (lit "U_RIGHT_TO_LEFT_EMBEDDING")), (EStr (lit "RLE")));
  ((EName (lit "U_RIGHT_TO_LEFT_ISOLATE")), (EStr (lit "RLI")));
  ((EName (lit "U_RIGHT_TO_LEFT_OVERRIDE")), (EStr (lit "RLO")));
  ((EName (lit "U_SEGMENT_SEPARATOR")), (EStr (lit "S")));
  ((EName (lit "U_WHITE_SPACE_NEUTRAL")), (EStr (lit "WS")))]);
  SAssign (lit "blockNames") (EDict [
  ((EName (lit "UBLOCK_BASIC_LATIN")), (EStr (lit "ASCII")));
  ((EName (lit "UBLOCK_ADLAM")), (EStr (lit "Adlam")));
  ((EName (lit "UBLOCK_AEGEAN_NUMBERS")), (EStr (lit "Aegean Numbers")));
  ((EName (lit "UBLOCK_AHOM")), (EStr (lit "Ahom")));
  ((EName (lit "UBLOCK_ALCHEMICAL_SYMBOLS")), (EStr (lit "Alchemical")));
  ((EName (lit "UBLOCK_ALPHABETIC_PRESENTATION_FORMS")), (EStr (lit "Alphabetic PF")));
  ((EName (lit "UBLOCK_ANATOLIAN_HIEROGLYPHS")), (EStr (lit "Anatolian Hieroglyphs")));
  ((EName (lit "UBLOCK_ANCIENT_GREEK_MUSICAL_NOTATION")), (EStr (lit "Ancient Greek Music")));
  ((EName (lit "UBLOCK_ANCIENT_GREEK_NUMBERS")), (EStr (lit "Ancient Greek Numbers")));
  ((EName (lit "UBLOCK_ANCIENT_SYMBOLS")), (EStr (lit "Ancient Symbols")));
  ((EName (lit "UBLOCK_ARABIC")), (EStr (lit "Arabic")));
  ((EName (lit "UBLOCK_ARABIC_EXTENDED_A")), (EStr (lit "Arabic Ext A")));
  ((EName (lit "UBLOCK_ARABIC_MATHEMATICAL_ALPHABETIC_SYMBOLS")), (EStr (lit "Arabic Math")));
  ((EName (lit "UBLOCK_ARABIC_PRESENTATION_FORMS_A")), (EStr (lit "Arabic PF A")));
  ((EName (lit "UBLOCK_ARABIC_PRESENTATION_FORMS_B")), (EStr (lit "Arabic PF B")));
  ((EName (lit "UBLOCK_ARABIC_SUPPLEMENT")), (EStr (lit "Arabic Sup")));
  ((EName (lit "UBLOCK_ARMENIAN")), (EStr (lit "Armenian")));
  ((EName (lit "UBLOCK_ARROWS")), (EStr (lit "Arrows")));
  ((EName (lit "UBLOCK_AVESTAN")), (EStr (lit "Avestan")));
  ((EName (lit "UBLOCK_BALINESE")), (EStr (lit "Balinese")));
  ((EName (lit "UBLOCK_BAMUM")), (EStr (lit "Bamum")));
  ((EName (lit "UBLOCK_BAMUM_SUPPLEMENT")), (EStr (lit "Bamum Sup")));
  ((EName (lit "UBLOCK_BASSA_VAH")), (EStr (lit "Bassa Vah")));
  ((EName (lit "UBLOCK_BATAK")), (EStr (lit "Batak")));
  ((EName (lit "UBLOCK_BENGALI")), (EStr (lit "Bengali")));
  ((EName (lit "UBLOCK_BHAIKSUKI")), (EStr (lit "Bhaiksuki")));
  ((EName (lit "UBLOCK_BLOCK_ELEMENTS")), (EStr (lit "Block Elements")));
  ((EName (lit "UBLOCK_BOPOMOFO")), (EStr (lit "Bopomofo")));
  ((EName (lit "UBLOCK_BOPOMOFO_EXTENDED")), (EStr (lit "Bopomofo Ext")));
  ((EName (lit "UBLOCK_BOX_DRAWING")), (EStr (lit "Box Drawing")));
  ((EName (lit "UBLOCK_BRAHMI")), (EStr (lit "Brahmi")));
  ((EName (lit "UBLOCK_BRAILLE_PATTERNS")), (EStr (lit "Braille")));
  ((EName (lit "UBLOCK_BUGINESE")), (EStr (lit "Buginese")));
  ((EName (lit "UBLOCK_BUHID")), (EStr (lit "Buhid")));
  ((EName (lit "UBLOCK_BYZANTINE_MUSICAL_SYMBOLS")), (EStr (lit "Byzantine Music")));
  ((EName (lit "UBLOCK_CJK_UNIFIED_IDEOGRAPHS")), (EStr (lit "CJK")));
  ((EName (lit "UBLOCK_CJK_COMPATIBILITY")), (EStr (lit "CJK Compat")));
  ((EName (lit "UBLOCK_CJK_COMPATIBILITY_FORMS")), (EStr (lit "CJK Compat Forms")));
  ((EName (lit "UBLOCK_CJK_COMPATIBILITY_IDEOGRAPHS")), (EStr (lit "CJK Compat Ideographs")));
  ((EName (lit "UBLOCK_CJK_COMPATIBILITY_IDEOGRAPHS_SUPPLEMENT")), (EStr (lit "CJK Compat Ideographs Sup")));
  ((EName (lit "UBLOCK_CJK_UNIFIED_IDEOGRAPHS_EXTENSION_A")), (EStr (lit "CJK Ext A")));
  ((EName (lit "UBLOCK_CJK_UNIFIED_IDEOGRAPHS_EXTENSION_B")), (EStr (lit "CJK Ext B")));
  ((EName (lit "UBLOCK_CJK_UNIFIED_IDEOGRAPHS_EXTENSION_C")), (EStr (lit "CJK Ext C")));
  ((EName (lit "UBLOCK_CJK_UNIFIED_IDEOGRAPHS_EXTENSION_D")), (EStr (lit "CJK Ext D")));
  ((EName (lit "UBLOCK_CJK_UNIFIED_IDEOGRAPHS_EXTENSION_E")), (EStr (lit "CJK Ext E")));
  ((EName (lit "UBLOCK_CJK_UNIFIED_IDEOGRAPHS_EXTENSION_F")), (EStr (lit "CJK Ext F")));
  ((EName (lit "UBLOCK_CJK_UNIFIED_IDEOGRAPHS_EXTENSION_G")), (EStr (lit "CJK Ext G")));
  ((EName (lit "UBLOCK_CJK_RADICALS_SUPPLEMENT")), (EStr (lit "CJK Radicals Sup")));
  ((EName (lit "UBLOCK_CJK_STROKES")), (EStr (lit "CJK Strokes")));
  ((EName (lit "UBLOCK_CJK_SYMBOLS_AND_PUNCTUATION")), (EStr (lit "CJK Symbols")));
  ((EName (lit "UBLOCK_CARIAN")), (EStr (lit "Carian")));
  ((EName (lit "UBLOCK_CAUCASIAN_ALBANIAN")), (EStr (lit "Caucasian Albanian")));
  ((EName (lit "UBLOCK_CHAKMA")), (EStr (lit "Chakma")));
  ((EName (lit "UBLOCK_CHAM")), (EStr (lit "Cham")));
  ((EName (lit "UBLOCK_CHEROKEE")), (EStr (lit "Cherokee")));
  ((EName (lit "UBLOCK_CHEROKEE_SUPPLEMENT")), (EStr (lit "Cherokee Sup")));
  ((EName (lit "UBLOCK_CHESS_SYMBOLS")), (EStr (lit "Chess Symbols")));
  ((EName (lit "UBLOCK_CHORASMIAN")), (EStr (lit "Chorasmian")));
  ((EName (lit "UBLOCK_HANGUL_COMPATIBILITY_JAMO")), (EStr (lit "Compat Jamo")));
  ((EName (lit "UBLOCK_CONTROL_PICTURES")), (EStr (lit "Control Pictures")));
  ((EName (lit "UBLOCK_COPTIC")), (EStr (lit "Coptic")));
  ((EName (lit "UBLOCK_COPTIC_EPACT_NUMBERS")), (EStr (lit "Coptic Epact Numbers")));
  ((EName (lit "UBLOCK_COUNTING_ROD_NUMERALS")), (EStr (lit "Counting Rod")));
  ((EName (lit "UBLOCK_CUNEIFORM")), (EStr (lit "Cuneiform")));
  ((EName (lit "UBLOCK_CUNEIFORM_NUMBERS_AND_PUNCTUATION")), (EStr (lit "Cuneiform Numbers")));
  ((EName (lit "UBLOCK_CURRENCY_SYMBOLS")), (EStr (lit "Currency Symbols")));
  ((EName (lit "UBLOCK_CYPRIOT_SYLLABARY")), (EStr (lit "Cypriot Syllabary")));
  ((EName (lit "UBLOCK_CYRILLIC")), (EStr (lit "Cyrillic")));
  ((EName (lit "UBLOCK_CYRILLIC_EXTENDED_A")), (EStr (lit "Cyrillic Ext A")));
  ((EName (lit "UBLOCK_CYRILLIC_EXTENDED_B")), (EStr (lit "Cyrillic Ext B")));
  ((EName (lit "UBLOCK_CYRILLIC_EXTENDED_C")), (EStr (lit "Cyrillic Ext C")));
  ((EName (lit "UBLOCK_CYRILLIC_SUPPLEMENT")), (EStr (lit "Cyrillic Sup")));
  ((EName (lit "UBLOCK_DESERET")), (EStr (lit "Deseret")));
  ((EName (lit "UBLOCK_DEVANAGARI")), (EStr (lit "Devanagari")));
  ((EName (lit "UBLOCK_DEVANAGARI_EXTENDED")), (EStr (lit "Devanagari Ext")));
  ((EName (lit "UBLOCK_COMBINING_DIACRITICAL_MARKS")), (EStr (lit "Diacriticals")));
  ((EName (lit "UBLOCK_COMBINING_DIACRITICAL_MARKS_EXTENDED")), (EStr (lit "Diacriticals Ext")));
  ((EName (lit "UBLOCK_COMBINING_MARKS_FOR_SYMBOLS")), (EStr (lit "Diacriticals For Symbols")));
  ((EName (lit "UBLOCK_COMBINING_DIACRITICAL_MARKS_SUPPLEMENT")), (EStr (lit "Diacriticals Sup")));
  ((EName (lit "UBLOCK_DINGBATS")), (EStr (lit "Dingbats")));
  ((EName (lit "UBLOCK_DIVES_AKURU")), (EStr (lit "Dives Akuru")));
  ((EName (lit "UBLOCK_DOGRA")), (EStr (lit "Dogra")));
  ((EName (lit "UBLOCK_DOMINO_TILES")), (EStr (lit "Domino")));
  ((EName (lit "UBLOCK_DUPLOYAN")), (EStr (lit "Duployan")));
  ((EName (lit "UBLOCK_EARLY_DYNASTIC_CUNEIFORM")), (EStr (lit "Early Dynastic Cuneiform")));
  ((EName (lit "UBLOCK_EGYPTIAN_HIEROGLYPH_FORMAT_CONTROLS")), (EStr (lit "Egyptian Hieroglyph Format Controls")));
  ((EName (lit "UBLOCK_EGYPTIAN_HIEROGLYPHS")), (EStr (lit "Egyptian Hieroglyphs")));
  ((EName (lit "UBLOCK_ELBASAN")), (EStr (lit "Elbasan")));
  ((EName (lit "UBLOCK_ELYMAIC")), (EStr (lit "Elymaic")));
  ((EName (lit "UBLOCK_EMOTICONS")), (EStr (lit "Emoticons")));
  ((EName (lit "UBLOCK_ENCLOSED_ALPHANUMERICS")), (EStr (lit "Enclosed Alphanum")));
  ((EName (lit "UBLOCK_ENCLOSED_ALPHANUMERIC_SUPPLEMENT")), (EStr (lit "Enclosed Alphanum Sup")));
  ((EName (lit "UBLOCK_ENCLOSED_CJK_LETTERS_AND_MONTHS")), (EStr (lit "Enclosed CJK")));
  ((EName (lit "UBLOCK_ENCLOSED_IDEOGRAPHIC_SUPPLEMENT")), (EStr (lit "Enclosed Ideographic Sup")));
  ((EName (lit "UBLOCK_ETHIOPIC")), (EStr (lit "Ethiopic")));
  ((EName (lit "UBLOCK_ETHIOPIC_EXTENDED")), (EStr (lit "Ethiopic Ext")));
  ((EName (lit "UBLOCK_ETHIOPIC_EXTENDED_A")), (EStr (lit "Ethiopic Ext A")));
  ((EName (lit "UBLOCK_ETHIOPIC_SUPPLEMENT")), (EStr (lit "Ethiopic Sup")));
  ((EName (lit "UBLOCK_GEOMETRIC_SHAPES")), (EStr (lit "Geometric Shapes")));
  ((EName (lit "UBLOCK_GEOMETRIC_SHAPES_EXTENDED")), (EStr (lit "Geometric Shapes Ext")));
  ((EName (lit "UBLOCK_GEORGIAN")), (EStr (lit "Georgian")));
  ((EName (lit "UBLOCK_GEORGIAN_EXTENDED")), (EStr (lit "Georgian Ext")));
  ((EName (lit "UBLOCK_GEORGIAN_SUPPLEMENT")), (EStr (lit "Georgian Sup")));
  ((EName (lit "UBLOCK_GLAGOLITIC")), (EStr (lit "Glagolitic")));
  ((EName (lit "UBLOCK_GLAGOLITIC_SUPPLEMENT")), (EStr (lit "Glagolitic Sup")));
  ((EName (lit "UBLOCK_GOTHIC")), (EStr (lit "Gothic")));
  ((EName (lit "UBLOCK_GRANTHA")), (EStr (lit "Grantha")));
  ((EName (lit "UBLOCK_GREEK")), (EStr (lit "Greek")));
  ((EName (lit "UBLOCK_GREEK_EXTENDED")), (EStr (lit "Greek Ext")));
  ((EName (lit "UBLOCK_GUJARATI")), (EStr (lit "Gujarati")));
  ((EName (lit "UBLOCK_GUNJALA_GONDI")), (EStr (lit "Gunjala Gondi")));
  ((EName (lit "UBLOCK_GURMUKHI")), (EStr (lit "Gurmukhi")));
  ((EName (lit "UBLOCK_HALFWIDTH_AND_FULLWIDTH_FORMS")), (EStr (lit "Half And Full Forms")));
  ((EName (lit "UBLOCK_COMBINING_HALF_MARKS")), (EStr (lit "Half Marks")));
  ((EName (lit "UBLOCK_HANGUL_SYLLABLES")), (EStr (lit "Hangul")));
  ((EName (lit "UBLOCK_HANIFI_ROHINGYA")), (EStr (lit "Hanifi Rohingya")));
  ((EName (lit "UBLOCK_HANUNOO")), (EStr (lit "Hanunoo")));
  ((EName (lit "UBLOCK_HATRAN")), (EStr (lit "Hatran")));
  ((EName (lit "UBLOCK_HEBREW")), (EStr (lit "Hebrew")));
  ((EName (lit "UBLOCK_HIGH_PRIVATE_USE_SURROGATES")), (EStr (lit "High PU Surrogates")));
  ((EName (lit "UBLOCK_HIGH_SURROGATES")), (EStr (lit "High Surrogates")));
  ((EName (lit "UBLOCK_HIRAGANA")), (EStr (lit "Hiragana")));
  ((EName (lit "UBLOCK_IDEOGRAPHIC_DESCRIPTION_CHARACTERS")), (EStr (lit "IDC")));
  ((EName (lit "UBLOCK_IPA_EXTENSIONS")), (EStr (lit "IPA Ext")));
  ((EName (lit "UBLOCK_IDEOGRAPHIC_SYMBOLS_AND_PUNCTUATION")), (EStr (lit "Ideographic Symbols")));
  ((EName (lit "UBLOCK_IMPERIAL_ARAMAIC")), (EStr (lit "Imperial Aramaic")));
  ((EName (lit "UBLOCK_COMMON_INDIC_NUMBER_FORMS")), (EStr (lit "Indic Number Forms")));
  ((EName (lit "UBLOCK_INDIC_SIYAQ_NUMBERS")), (EStr (lit "Indic Siyaq Numbers")));
  ((EName (lit "UBLOCK_INSCRIPTIONAL_PAHLAVI")), (EStr (lit "Inscriptional Pahlavi")));
  ((EName (lit "UBLOCK_INSCRIPTIONAL_PARTHIAN")), (EStr (lit "Inscriptional Parthian")));
  ((EName (lit "UBLOCK_HANGUL_JAMO")), (EStr (lit "Jamo")));
  ((EName (lit "UBLOCK_HANGUL_JAMO_EXTENDED_A")), (EStr (lit "Jamo Ext A")));
  ((EName (lit "UBLOCK_HANGUL_JAMO_EXTENDED_B")), (EStr (lit "Jamo Ext B")));
  ((EName (lit "UBLOCK_JAVANESE")), (EStr (lit "Javanese")));
  ((EName (lit "UBLOCK_KAITHI")), (EStr (lit "Kaithi")));
  ((EName (lit "UBLOCK_KANA_EXTENDED_A")), (EStr (lit "Kana Ext A")));
  ((EName (lit "UBLOCK_KANA_SUPPLEMENT")), (EStr (lit "Kana Sup")));
  ((EName (lit "UBLOCK_KANBUN")), (EStr (lit "Kanbun")));
  ((EName (lit "UBLOCK_KANGXI_RADICALS")), (EStr (lit "Kangxi")));
  ((EName (lit "UBLOCK_KANNADA")), (EStr (lit "Kannada")));
  ((EName (lit "UBLOCK_KATAKANA")), (EStr (lit "Katakana")));
  ((EName (lit "UBLOCK_KATAKANA_PHONETIC_EXTENSIONS")), (EStr (lit "Katakana Ext")));
  ((EName (lit "UBLOCK_KAYAH_LI")), (EStr (lit "Kayah Li")));
  ((EName (lit "UBLOCK_KHAROSHTHI")), (EStr (lit "Kharoshthi")));
  ((EName (lit "UBLOCK_KHITAN_SMALL_SCRIPT")), (EStr (lit "Khitan Small Script")));
  ((EName (lit "UBLOCK_KHMER")), (EStr (lit "Khmer")));
  ((EName (lit "UBLOCK_KHMER_SYMBOLS")), (EStr (lit "Khmer Symbols")));
  ((EName (lit "UBLOCK_KHOJKI")), (EStr (lit "Khojki")));
  ((EName (lit "UBLOCK_KHUDAWADI")), (EStr (lit "Khudawadi")));
  ((EName (lit "UBLOCK_LAO")), (EStr (lit "Lao")));
  ((EName (lit "UBLOCK_LATIN_1_SUPPLEMENT")), (EStr (lit "Latin 1 Sup")));
  ((EName (lit "UBLOCK_LATIN_EXTENDED_A")), (EStr (lit "Latin Ext A")));
  ((EName (lit "UBLOCK_LATIN_EXTENDED_ADDITIONAL")), (EStr (lit "Latin Ext Additional")));
  ((EName (lit "UBLOCK_LATIN_EXTENDED_B")), (EStr (lit "Latin Ext B")));
  ((EName (lit "UBLOCK_LATIN_EXTENDED_C")), (EStr (lit "Latin Ext C")));
  ((EName (lit "UBLOCK_LATIN_EXTENDED_D")), (EStr (lit "Latin Ext D")));
  ((EName (lit "UBLOCK_LATIN_EXTENDED_E")), (EStr (lit "Latin Ext E")));
  ((EName (lit "UBLOCK_LEPCHA")), (EStr (lit "Lepcha")));
  ((EName (lit "UBLOCK_LETTERLIKE_SYMBOLS")), (EStr (lit "Letterlike Symbols")));
  ((EName (lit "UBLOCK_LIMBU")), (EStr (lit "Limbu")));
  ((EName (lit "UBLOCK_LINEAR_A")), (EStr (lit "Linear A")));
  ((EName (lit "UBLOCK_LINEAR_B_IDEOGRAMS")), (EStr (lit "Linear B Ideograms")));
  ((EName (lit "UBLOCK_LINEAR_B_SYLLABARY")), (EStr (lit "Linear B Syllabary")));
  ((EName (lit "UBLOCK_LISU")), (EStr (lit "Lisu")));
  ((EName (lit "UBLOCK_LISU_SUPPLEMENT")), (EStr (lit "Lisu Sup")));
  ((EName (lit "UBLOCK_LOW_SURROGATES")), (EStr (lit "Low Surrogates")));
  ((EName (lit "UBLOCK_LYCIAN")), (EStr (lit "Lycian")));
  ((EName (lit "UBLOCK_LYDIAN")), (EStr (lit "Lydian")));
  ((EName (lit "UBLOCK_MAHAJANI")), (EStr (lit "Mahajani")));
  ((EName (lit "UBLOCK_MAHJONG_TILES")), (EStr (lit "Mahjong")));
  ((EName (lit "UBLOCK_MAKASAR")), (EStr (lit "Makasar")));
  ((EName (lit "UBLOCK_MALAYALAM")), (EStr (lit "Malayalam")));
  ((EName (lit "UBLOCK_MANDAIC")), (EStr (lit "Mandaic")));
  ((EName (lit "UBLOCK_MANICHAEAN")), (EStr (lit "Manichaean")));
  ((EName (lit "UBLOCK_MARCHEN")), (EStr (lit "Marchen")));
  ((EName (lit "UBLOCK_MASARAM_GONDI")), (EStr (lit "Masaram Gondi")));
  ((EName (lit "UBLOCK_MATHEMATICAL_ALPHANUMERIC_SYMBOLS")), (EStr (lit "Math Alphanum")));
  ((EName (lit "UBLOCK_MATHEMATICAL_OPERATORS")), (EStr (lit "Math Operators")));
  ((EName (lit "UBLOCK_MAYAN_NUMERALS")), (EStr (lit "Mayan Numerals")));
  ((EName (lit "UBLOCK_MEDEFAIDRIN")), (EStr (lit "Medefaidrin")));
  ((EName (lit "UBLOCK_MEETEI_MAYEK")), (EStr (lit "Meetei Mayek")));
  ((EName (lit "UBLOCK_MEETEI_MAYEK_EXTENSIONS")), (EStr (lit "Meetei Mayek Ext")));
  ((EName (lit "UBLOCK_MENDE_KIKAKUI")), (EStr (lit "Mende Kikakui")));
  ((EName (lit "UBLOCK_MEROITIC_CURSIVE")), (EStr (lit "Meroitic Cursive")));
  ((EName (lit "UBLOCK_MEROITIC_HIEROGLYPHS")), (EStr (lit "Meroitic Hieroglyphs")));
  ((EName (lit "UBLOCK_MIAO")), (EStr (lit "Miao")));
  ((EName (lit "UBLOCK_MISCELLANEOUS_SYMBOLS_AND_ARROWS")), (EStr (lit "Misc Arrows")));
  ((EName (lit "UBLOCK_MISCELLANEOUS_MATHEMATICAL_SYMBOLS_A")), (EStr (lit "Misc Math Symbols A")));
  ((EName (lit "UBLOCK_MISCELLANEOUS_MATHEMATICAL_SYMBOLS_B")), (EStr (lit "Misc Math Symbols B")));
  ((EName (lit "UBLOCK_MISCELLANEOUS_SYMBOLS_AND_PICTOGRAPHS")), (EStr (lit "Misc Pictographs")));
  ((EName (lit "UBLOCK_MISCELLANEOUS_SYMBOLS")), (EStr (lit "Misc Symbols")));
  ((EName (lit "UBLOCK_MISCELLANEOUS_TECHNICAL")), (EStr (lit "Misc Technical")));
  ((EName (lit "UBLOCK_MODI")), (EStr (lit "Modi")));
  ((EName (lit "UBLOCK_SPACING_MODIFIER_LETTERS")), (EStr (lit "Modifier Letters")));
  ((EName (lit "UBLOCK_MODIFIER_TONE_LETTERS")), (EStr (lit "Modifier Tone Letters")));
  ((EName (lit "UBLOCK_MONGOLIAN")), (EStr (lit "Mongolian")));
  ((EName (lit "UBLOCK_MONGOLIAN_SUPPLEMENT")), (EStr (lit "Mongolian Sup")));
  ((EName (lit "UBLOCK_MRO")), (EStr (lit "Mro")));
  ((EName (lit "UBLOCK_MULTANI")), (EStr (lit "Multani")));
  ((EName (lit "UBLOCK_MUSICAL_SYMBOLS")), (EStr (lit "Music")));
  ((EName (lit "UBLOCK_MYANMAR")), (EStr (lit "Myanmar")));
  ((EName (lit "UBLOCK_MYANMAR_EXTENDED_A")), (EStr (lit "Myanmar Ext A")));
  ((EName (lit "UBLOCK_MYANMAR_EXTENDED_B")), (EStr (lit "Myanmar Ext B")));
  ((EName (lit "UBLOCK_NO_BLOCK")), (EStr (lit "NB")));
  ((EName (lit "UBLOCK_NKO")), (EStr (lit "NKo")));
  ((EName (lit "UBLOCK_NABATAEAN")), (EStr (lit "Nabataean")));
  ((EName (lit "UBLOCK_NANDINAGARI")), (EStr (lit "Nandinagari")));
  ((EName (lit "UBLOCK_NEW_TAI_LUE")), (EStr (lit "New Tai Lue")));
  ((EName (lit "UBLOCK_NEWA")), (EStr (lit "Newa")));
  ((EName (lit "UBLOCK_NUMBER_FORMS")), (EStr (lit "Number Forms")));
  ((EName (lit "UBLOCK_NUSHU")), (EStr (lit "Nushu")));
  ((EName (lit "UBLOCK_NYIAKENG_PUACHUE_HMONG")), (EStr (lit "Nyiakeng Puachue Hmong")));
  ((EName (lit "UBLOCK_OPTICAL_CHARACTER_RECOGNITION")), (EStr (lit "OCR")));
  ((EName (lit "UBLOCK_OGHAM")), (EStr (lit "Ogham")));
  ((EName (lit "UBLOCK_OL_CHIKI")), (EStr (lit "Ol Chiki")));
  ((EName (lit "UBLOCK_OLD_HUNGARIAN")), (EStr (lit "Old Hungarian")));
  ((EName (lit "UBLOCK_OLD_ITALIC")), (EStr (lit "Old Italic")));
  ((EName (lit "UBLOCK_OLD_NORTH_ARABIAN")), (EStr (lit "Old North Arabian")));
  ((EName (lit "UBLOCK_OLD_PERMIC")), (EStr (lit "Old Permic")));
  ((EName (lit "UBLOCK_OLD_PERSIAN")), (EStr (lit "Old Persian")));
  ((EName (lit "UBLOCK_OLD_SOGDIAN")), (EStr (lit "Old Sogdian")));
  ((EName (lit "UBLOCK_OLD_SOUTH_ARABIAN")), (EStr (lit "Old South Arabian")));
  ((EName (lit "UBLOCK_OLD_TURKIC")), (EStr (lit "Old Turkic")));
  ((EName (lit "UBLOCK_ORIYA")), (EStr (lit "Oriya")));
  ((EName (lit "UBLOCK_ORNAMENTAL_DINGBATS")), (EStr (lit "Ornamental Dingbats")));
  ((EName (lit "UBLOCK_OSAGE")), (EStr (lit "Osage")));
  ((EName (lit "UBLOCK_OSMANYA")), (EStr (lit "Osmanya")));
  ((EName (lit "UBLOCK_OTTOMAN_SIYAQ_NUMBERS")), (EStr (lit "Ottoman Siyaq Numbers")));
  ((EName (lit "UBLOCK_PRIVATE_USE_AREA")), (EStr (lit "PUA")));
  ((EName (lit "UBLOCK_PAHAWH_HMONG")), (EStr (lit "Pahawh Hmong")));
  ((EName (lit "UBLOCK_PALMYRENE")), (EStr (lit "Palmyrene")));
  ((EName (lit "UBLOCK_PAU_CIN_HAU")), (EStr (lit "Pau Cin Hau")));
  ((EName (lit "UBLOCK_PHAGS_PA")), (EStr (lit "Phags Pa")));
  ((EName (lit "UBLOCK_PHAISTOS_DISC")), (EStr (lit "Phaistos")));
  ((EName (lit "UBLOCK_PHOENICIAN")), (EStr (lit "Phoenician")));
  ((EName (lit "UBLOCK_PHONETIC_EXTENSIONS")), (EStr (lit "Phonetic Ext")));
  ((EName (lit "UBLOCK_PHONETIC_EXTENSIONS_SUPPLEMENT")), (EStr (lit "Phonetic Ext Sup")));
  ((EName (lit "UBLOCK_PLAYING_CARDS")), (EStr (lit "Playing Cards")));
  ((EName (lit "UBLOCK_PSALTER_PAHLAVI")), (EStr (lit "Psalter Pahlavi")));
  ((EName (lit "UBLOCK_GENERAL_PUNCTUATION")), (EStr (lit "Punctuation")));
  ((EName (lit "UBLOCK_REJANG")), (EStr (lit "Rejang")));
  ((EName (lit "UBLOCK_RUMI_NUMERAL_SYMBOLS")), (EStr (lit "Rumi")));
  ((EName (lit "UBLOCK_RUNIC")), (EStr (lit "Runic")));
  ((EName (lit "UBLOCK_SAMARITAN")), (EStr (lit "Samaritan")));
  ((EName (lit "UBLOCK_SAURASHTRA")), (EStr (lit "Saurashtra")));
  ((EName (lit "UBLOCK_SHARADA")), (EStr (lit "Sharada")));
  ((EName (lit "UBLOCK_SHAVIAN")), (EStr (lit "Shavian")));
  ((EName (lit "UBLOCK_SHORTHAND_FORMAT_CONTROLS")), (EStr (lit "Shorthand Format Controls")));
  ((EName (lit "UBLOCK_SIDDHAM")), (EStr (lit "Siddham")));
  ((EName (lit "UBLOCK_SINHALA")), (EStr (lit "Sinhala")));
  ((EName (lit "UBLOCK_SINHALA_ARCHAIC_NUMBERS")), (EStr (lit "Sinhala Archaic Numbers")));
  ((EName (lit "UBLOCK_SMALL_FORM_VARIANTS")), (EStr (lit "Small Forms")));
  ((EName (lit "UBLOCK_SMALL_KANA_EXTENSION")), (EStr (lit "Small Kana Ext")));
  ((EName (lit "UBLOCK_SOGDIAN")), (EStr (lit "Sogdian")));
  ((EName (lit "UBLOCK_SORA_SOMPENG")), (EStr (lit "Sora Sompeng")));
  ((EName (lit "UBLOCK_SOYOMBO")), (EStr (lit "Soyombo")));
  ((EName (lit "UBLOCK_SPECIALS")), (EStr (lit "Specials")));
  ((EName (lit "UBLOCK_SUNDANESE")), (EStr (lit "Sundanese")));
  ((EName (lit "UBLOCK_SUNDANESE_SUPPLEMENT")), (EStr (lit "Sundanese Sup")));
  ((EName (lit "UBLOCK_SUPPLEMENTAL_ARROWS_A")), (EStr (lit "Sup Arrows A")));
  ((EName (lit "UBLOCK_SUPPLEMENTAL_ARROWS_B")), (EStr (lit "Sup Arrows B")));
  ((EName (lit "UBLOCK_SUPPLEMENTAL_ARROWS_C")), (EStr (lit "Sup Arrows C")));
  ((EName (lit "UBLOCK_SUPPLEMENTAL_MATHEMATICAL_OPERATORS")), (EStr (lit "Sup Math Operators")));
  ((EName (lit "UBLOCK_SUPPLEMENTARY_PRIVATE_USE_AREA_A")), (EStr (lit "Sup PUA A")));
  ((EName (lit "UBLOCK_SUPPLEMENTARY_PRIVATE_USE_AREA_B")), (EStr (lit "Sup PUA B")));
  ((EName (lit "UBLOCK_SUPPLEMENTAL_PUNCTUATION")), (EStr (lit "Sup Punctuation")));
  ((EName (lit "UBLOCK_SUPPLEMENTAL_SYMBOLS_AND_PICTOGRAPHS")), (EStr (lit "Sup Symbols And Pictographs")));
  ((EName (lit "UBLOCK_SUPERSCRIPTS_AND_SUBSCRIPTS")), (EStr (lit "Super And Sub")));
  ((EName (lit "UBLOCK_SUTTON_SIGNWRITING")), (EStr (lit "Sutton SignWriting")));
  ((EName (lit "UBLOCK_SYLOTI_NAGRI")), (EStr (lit "Syloti Nagri")));
  ((EName (lit "UBLOCK_SYMBOLS_AND_PICTOGRAPHS_EXTENDED_A")), (EStr (lit "Symbols And Pictographs Ext A")));
  ((EName (lit "UBLOCK_SYMBOLS_FOR_LEGACY_COMPUTING")), (EStr (lit "Symbols For Legacy Computing")));
  ((EName (lit "UBLOCK_SYRIAC")), (EStr (lit "Syriac")));
  ((EName (lit "UBLOCK_SYRIAC_SUPPLEMENT")), (EStr (lit "Syriac Sup")));
  ((EName (lit "UBLOCK_TAGALOG")), (EStr (lit "Tagalog")));
  ((EName (lit "UBLOCK_TAGBANWA")), (EStr (lit "Tagbanwa")));
  ((EName (lit "UBLOCK_TAGS")), (EStr (lit "Tags")));
  ((EName (lit "UBLOCK_TAI_LE")), (EStr (lit "Tai Le")));
  ((EName (lit "UBLOCK_TAI_THAM")), (EStr (lit "Tai Tham")));
  ((EName (lit "UBLOCK_TAI_VIET")), (EStr (lit "Tai Viet")));
  ((EName (lit "UBLOCK_TAI_XUAN_JING_SYMBOLS")), (EStr (lit "Tai Xuan Jing")));
  ((EName (lit "UBLOCK_TAKRI")), (EStr (lit "Takri")));
  ((EName (lit "UBLOCK_TAMIL")), (EStr (lit "Tamil")));
  ((EName (lit "UBLOCK_TAMIL_SUPPLEMENT")), (EStr (lit "Tamil Sup")));
  ((EName (lit "UBLOCK_TANGUT")), (EStr (lit "Tangut")));
  ((EName (lit "UBLOCK_TANGUT_COMPONENTS")), (EStr (lit "Tangut Components")));
  ((EName (lit "UBLOCK_TANGUT_SUPPLEMENT")), (EStr (lit "Tangut Sup")));
  ((EName (lit "UBLOCK_TELUGU")), (EStr (lit "Telugu")));
  ((EName (lit "UBLOCK_THAANA")), (EStr (lit "Thaana")));
  ((EName (lit "UBLOCK_THAI")), (EStr (lit "Thai")));
  ((EName (lit "UBLOCK_TIBETAN")), (EStr (lit "Tibetan")));
  ((EName (lit "UBLOCK_TIFINAGH")), (EStr (lit "Tifinagh")));
  ((EName (lit "UBLOCK_TIRHUTA")), (EStr (lit "Tirhuta")));
  ((EName (lit "UBLOCK_TRANSPORT_AND_MAP_SYMBOLS")), (EStr (lit "Transport And Map")));
  ((EName (lit "UBLOCK_UNIFIED_CANADIAN_ABORIGINAL_SYLLABICS")), (EStr (lit "UCAS")));
  ((EName (lit "UBLOCK_UNIFIED_CANADIAN_ABORIGINAL_SYLLABICS_EXTENDED")), (EStr (lit "UCAS Ext")));
  ((EName (lit "UBLOCK_UGARITIC")), (EStr (lit "Ugaritic")));
  ((EName (lit "UBLOCK_VARIATION_SELECTORS")), (EStr (lit "VS")));
  ((EName (lit "UBLOCK_VARIATION_SELECTORS_SUPPLEMENT")), (EStr (lit "VS Sup")));
  ((EName (lit "UBLOCK_VAI")), (EStr (lit "Vai")));
  ((EName (lit "UBLOCK_VEDIC_EXTENSIONS")), (EStr (lit "Vedic Ext")));
  ((EName (lit "UBLOCK_VERTICAL_FORMS")), (EStr (lit "Vertical Forms")));
  ((EName (lit "UBLOCK_WANCHO")), (EStr (lit "Wancho")));
  ((EName (lit "UBLOCK_WARANG_CITI")), (EStr (lit "Warang Citi")));
  ((EName (lit "UBLOCK_YEZIDI")), (EStr (lit "Yezidi")));
  ((EName (lit "UBLOCK_YI_RADICALS")), (EStr (lit "Yi Radicals")));
  ((EName (lit "UBLOCK_YI_SYLLABLES")), (EStr (lit "Yi Syllables")));
  ((EName (lit "UBLOCK_YIJING_HEXAGRAM_SYMBOLS")), (EStr (lit "Yijing")));
  ((EName (lit "UBLOCK_ZANABAZAR_SQUARE")), (EStr (lit "Zanabazar Square")))]);
  SAssign (lit "decompositionTypeNames") (EDict [
  ((EName (lit "U_DT_CANONICAL")), (EStr (lit "can")));
  ((EName (lit "U_DT_COMPAT")), (EStr (lit "com")));
  ((EName (lit "U_DT_CIRCLE")), (EStr (lit "enc")));
  ((EName (lit "U_DT_FINAL")), (EStr (lit "fin")));
  ((EName (lit "U_DT_FONT")), (EStr (lit "font")));
  ((EName (lit "U_DT_FRACTION")), (EStr (lit "fra")));
  ((EName (lit "U_DT_INITIAL")), (EStr (lit "init")));
  ((EName (lit "U_DT_ISOLATED")), (EStr (lit "iso")));
  ((EName (lit "U_DT_MEDIAL")), (EStr (lit "med")));
  ((EName (lit "U_DT_NARROW")), (EStr (lit "nar")));
  ((EName (lit "U_DT_NOBREAK")), (EStr (lit "nb")));
  ((EName (lit "U_DT_NONE")), (EStr (lit "none")));
  ((EName (lit "U_DT_SMALL")), (EStr (lit "sml")));
  ((EName (lit "U_DT_SQUARE")), (EStr (lit "sqr")));
  ((EName (lit "U_DT_SUB")), (EStr (lit "sub")));
  ((EName (lit "U_DT_SUPER")), (EStr (lit "sup")));
  ((EName (lit "U_DT_VERTICAL")), (EStr (lit "vert")));
  ((EName (lit "U_DT_WIDE")), (EStr (lit "wide")))]);
  SAssign (lit "eastAsianWidthNames") (EDict [
  ((EName (lit "U_EA_AMBIGUOUS")), (EStr (lit "A")));
  ((EName (lit "U_EA_FULLWIDTH")), (EStr (lit "F")));
  ((EName (lit "U_EA_HALFWIDTH")), (EStr (lit "H")));
  ((EName (lit "U_EA_NEUTRAL")), (EStr (lit "N")));
  ((EName (lit "U_EA_NARROW")), (EStr (lit "Na")));
  ((EName (lit "U_EA_WIDE")), (EStr (lit "W")))]);
  SAssign (lit "generalCategoryNames") (EDict [
  ((EName (lit "U_CONTROL_CHAR")), (EStr (lit "Cc")));
  ((EName (lit "U_FORMAT_CHAR")), (EStr (lit "Cf")));
  ((EName (lit "U_UNASSIGNED")), (EStr (lit "Cn")));
  ((EName (lit "U_PRIVATE_USE_CHAR")), (EStr (lit "Co")));
  ((EName (lit "U_SURROGATE")), (EStr (lit "Cs")));
  ((EName (lit "U_LOWERCASE_LETTER")), (EStr (lit "Ll")));
  ((EName (lit "U_MODIFIER_LETTER")), (EStr (lit "Lm")));
  ((EName (lit "U_OTHER_LETTER")), (EStr (lit "Lo")));
  ((EName (lit "U_TITLECASE_LETTER")), (EStr (lit "Lt")));
  ((EName (lit "U_UPPERCASE_LETTER")), (EStr (lit "Lu")));
  ((EName (lit "U_COMBINING_SPACING_MARK")), (EStr (lit "Mc")));
  ((EName (lit "U_ENCLOSING_MARK")), (EStr (lit "Me")));
  ((EName (lit "U_NON_SPACING_MARK")), (EStr (lit "Mn")));
  ((EName (lit "U_DECIMAL_DIGIT_NUMBER")), (EStr (lit "Nd")));
  ((EName (lit "U_LETTER_NUMBER")), (EStr (lit "Nl")));
  ((EName (lit "U_OTHER_NUMBER")), (EStr (lit "No")));
  ((EName (lit "U_CONNECTOR_PUNCTUATION")), (EStr (lit "Pc")));
  ((EName (lit "U_DASH_PUNCTUATION")), (EStr (lit "Pd")));
  ((EName (lit "U_END_PUNCTUATION")), (EStr (lit "Pe")));
  ((EName (lit "U_FINAL_PUNCTUATION")), (EStr (lit "Pf")));
  ((EName (lit "U_INITIAL_PUNCTUATION")), (EStr (lit "Pi")));
  ((EName (lit "U_OTHER_PUNCTUATION")), (EStr (lit "Po")));
  ((EName (lit "U_START_PUNCTUATION")), (EStr (lit "Ps")));
  ((EName (lit "U_CURRENCY_SYMBOL")), (EStr (lit "Sc")));
  ((EName (lit "U_MODIFIER_SYMBOL")), (EStr (lit "Sk")));
  ((EName (lit "U_MATH_SYMBOL")), (EStr (lit "Sm")));
  ((EName (lit "U_OTHER_SYMBOL")), (EStr (lit "So")));
  ((EName (lit "U_LINE_SEPARATOR")), (EStr (lit "Zl")));
  ((EName (lit "U_PARAGRAPH_SEPARATOR")), (EStr (lit "Zp")));
  ((EName (lit "U_SPACE_SEPARATOR")), (EStr (lit "Zs")))]);
  SAssign (lit "graphemeClusterBreakNames") (EDict [
  ((EName (lit "U_GCB_CONTROL")), (EStr (lit "CN")));
  ((EName (lit "U_GCB_CR")), (EStr (lit "CR")));
  ((EName (lit "U_GCB_E_BASE")), (EStr (lit "EB")));
  ((EName (lit "U_GCB_E_BASE_GAZ")), (EStr (lit "EBG")));
  ((EName (lit "U_GCB_E_MODIFIER")), (EStr (lit "EM")));
  ((EName (lit "U_GCB_EXTEND")), (EStr (lit "EX")));
  ((EName (lit "U_GCB_GLUE_AFTER_ZWJ")), (EStr (lit "GAZ")));
  ((EName (lit "U_GCB_L")), (EStr (lit "L")));
  ((EName (lit "U_GCB_LF")), (EStr (lit "LF")));
  ((EName (lit "U_GCB_LV")), (EStr (lit "LV")));
  ((EName (lit "U_GCB_LVT")), (EStr (lit "LVT")));
  ((EName (lit "U_GCB_PREPEND")), (EStr (lit "PP")));
  ((EName (lit "U_GCB_REGIONAL_INDICATOR")), (EStr (lit "RI")));
  ((EName (lit "U_GCB_SPACING_MARK")), (EStr (lit "SM")));
  ((EName (lit "U_GCB_T")), (EStr (lit "T")));
  ((EName (lit "U_GCB_V")), (EStr (lit "V")));
  ((EName (lit "U_GCB_OTHER")), (EStr (lit "XX")));
  ((EName (lit "U_GCB_ZWJ")), (EStr (lit "ZWJ")))]);
  SAssign (lit "hangulSyllableTypeNames") (EDict [
  ((EName (lit "U_HST_LEADING_JAMO")), (EStr (lit "L")));
  ((EName (lit "U_HST_LV_SYLLABLE")), (EStr (lit "LV")));
  ((EName (lit "U_HST_LVT_SYLLABLE")), (EStr (lit "LVT")));
  ((EName (lit "U_HST_NOT_APPLICABLE")), (EStr (lit "NA")));
  ((EName (lit "U_HST_TRAILING_JAMO")), (EStr (lit "T")));
  ((EName (lit "U_HST_VOWEL_JAMO")), (EStr (lit "V")))]);
  SAssign (lit "indicPositionalCategoryNames") (EDict [
  ((EName (lit "U_INPC_BOTTOM")), (EStr (lit "Bottom")));
  ((EName (lit "U_INPC_BOTTOM_AND_LEFT")), (EStr (lit "Bottom_And_Left")));
  ((EName (lit "U_INPC_BOTTOM_AND_RIGHT")), (EStr (lit "Bottom_And_Right")));
  ((EName (lit "U_INPC_LEFT")), (EStr (lit "Left")));
  ((EName (lit "U_INPC_LEFT_AND_RIGHT")), (EStr (lit "Left_And_Right")));
  ((EName (lit "U_INPC_NA")), (EStr (lit "NA")));
  ((EName (lit "U_INPC_OVERSTRUCK")), (EStr (lit "Overstruck")));
  ((EName (lit "U_INPC_RIGHT")), (EStr (lit "Right")));
  ((EName (lit "U_INPC_TOP")), (EStr (lit "Top")));
  ((EName (lit "U_INPC_TOP_AND_BOTTOM")), (EStr (lit "Top_And_Bottom")));
  ((EName (lit "U_INPC_TOP_AND_BOTTOM_AND_LEFT")), (EStr (lit "Top_And_Bottom_And_Left")));
  ((EName (lit "U_INPC_TOP_AND_BOTTOM_AND_RIGHT")), (EStr (lit "Top_And_Bottom_And_Right")));
  ((EName (lit "U_INPC_TOP_AND_LEFT")), (EStr (lit "Top_And_Left")));
  ((EName (lit "U_INPC_TOP_AND_LEFT_AND_RIGHT")), (EStr (lit "Top_And_Left_And_Right")));
  ((EName (lit "U_INPC_TOP_AND_RIGHT")), (EStr (lit "Top_And_Right")));
  ((EName (lit "U_INPC_VISUAL_ORDER_LEFT")), (EStr (lit "Visual_Order_Left")))]);
  SAssign (lit "indicSyllabicCategoryNames") (EDict [
  ((EName (lit "U_INSC_AVAGRAHA")), (EStr (lit "Avagraha")));
  ((EName (lit "U_INSC_BINDU")), (EStr (lit "Bindu")));
  ((EName (lit "U_INSC_BRAHMI_JOINING_NUMBER")), (EStr (lit "Brahmi_Joining_Number")));
  ((EName (lit "U_INSC_CANTILLATION_MARK")), (EStr (lit "Cantillation_Mark")));
  ((EName (lit "U_INSC_CONSONANT")), (EStr (lit "Consonant")));
  ((EName (lit "U_INSC_CONSONANT_DEAD")), (EStr (lit "Consonant_Dead")));
  ((EName (lit "U_INSC_CONSONANT_FINAL")), (EStr (lit "Consonant_Final")));
  ((EName (lit "U_INSC_CONSONANT_HEAD_LETTER")), (EStr (lit "Consonant_Head_Letter")));
  ((EName (lit "U_INSC_CONSONANT_INITIAL_POSTFIXED")), (EStr (lit "Consonant_Initial_Postfixed")));
  ((EName (lit "U_INSC_CONSONANT_KILLER")), (EStr (lit "Consonant_Killer")));
  ((EName (lit "U_INSC_CONSONANT_MEDIAL")), (EStr (lit "Consonant_Medial")));
  ((EName (lit "U_INSC_CONSONANT_PLACEHOLDER")), (EStr (lit "Consonant_Placeholder")));
  ((EName (lit "U_INSC_CONSONANT_PRECEDING_REPHA")), (EStr (lit "Consonant_Preceding_Repha")));
  ((EName (lit "U_INSC_CONSONANT_PREFIXED")), (EStr (lit "Consonant_Prefixed")));
  ((EName (lit "U_INSC_CONSONANT_SUBJOINED")), (EStr (lit "Consonant_Subjoined")));
  ((EName (lit "U_INSC_CONSONANT_SUCCEEDING_REPHA")), (EStr (lit "Consonant_Succeeding_Repha")));
  ((EName (lit "U_INSC_CONSONANT_WITH_STACKER")), (EStr (lit "Consonant_With_Stacker")));
  ((EName (lit "U_INSC_GEMINATION_MARK")), (EStr (lit "Gemination_Mark")));
  ((EName (lit "U_INSC_INVISIBLE_STACKER")), (EStr (lit "Invisible_Stacker")));
  ((EName (lit "U_INSC_JOINER")), (EStr (lit "Joiner")));
  ((EName (lit "U_INSC_MODIFYING_LETTER")), (EStr (lit "Modifying_Letter")));
  ((EName (lit "U_INSC_NON_JOINER")), (EStr (lit "Non_Joiner")));
  ((EName (lit "U_INSC_NUKTA")), (EStr (lit "Nukta")));
  ((EName (lit "U_INSC_NUMBER")), (EStr (lit "Number")));
  ((EName (lit "U_INSC_NUMBER_JOINER")), (EStr (lit "Number_Joiner")));
  ((EName (lit "U_INSC_OTHER")), (EStr (lit "Other")));
  ((EName (lit "U_INSC_PURE_KILLER")), (EStr (lit "Pure_Killer")));
  ((EName (lit "U_INSC_REGISTER_SHIFTER")), (EStr (lit "Register_Shifter")));
  ((EName (lit "U_INSC_SYLLABLE_MODIFIER")), (EStr (lit "Syllable_Modifier")));
  ((EName (lit "U_INSC_TONE_LETTER")), (EStr (lit "Tone_Letter")));
  ((EName (lit "U_INSC_TONE_MARK")), (EStr (lit "Tone_Mark")));
  ((EName (lit "U_INSC_VIRAMA")), (EStr (lit "Virama")));
  ((EName (lit "U_INSC_VISARGA")), (EStr (lit "Visarga")));
  ((EName (lit "U_INSC_VOWEL")), (EStr (lit "Vowel")));
  ((EName (lit "U_INSC_VOWEL_DEPENDENT")), (EStr (lit "Vowel_Dependent")));
  ((EName (lit "U_INSC_VOWEL_INDEPENDENT")), (EStr (lit "Vowel_Independent")))]);
  SAssign (lit "joiningGroupNames") (EDict [
  ((EName (lit "U_JG_AFRICAN_FEH")), (EStr (lit "African Feh")));
  ((EName (lit "U_JG_AFRICAN_NOON")), (EStr (lit "African Noon")));
  ((EName (lit "U_JG_AFRICAN_QAF")), (EStr (lit "African Qaf")));
  ((EName (lit "U_JG_AIN")), (EStr (lit "Ain")));
  ((EName (lit "U_JG_ALAPH")), (EStr (lit "Alaph")));
  ((EName (lit "U_JG_ALEF")), (EStr (lit "Alef")));
  ((EName (lit "U_JG_BEH")), (EStr (lit "Beh")));
  ((EName (lit "U_JG_BETH")), (EStr (lit "Beth")));
  ((EName (lit "U_JG_BURUSHASKI_YEH_BARREE")), (EStr (lit "Burushaski Yeh Barree")));
  ((EName (lit "U_JG_DAL")), (EStr (lit "Dal")));
  ((EName (lit "U_JG_DALATH_RISH")), (EStr (lit "Dalath Rish")));
  ((EName (lit "U_JG_E")), (EStr (lit "E")));
  ((EName (lit "U_JG_FARSI_YEH")), (EStr (lit "Farsi Yeh")));
  ((EName (lit "U_JG_FE")), (EStr (lit "Fe")));
  ((EName (lit "U_JG_FEH")), (EStr (lit "Feh")));
  ((EName (lit "U_JG_FINAL_SEMKATH")), (EStr (lit "Final Semkath")));
  ((EName (lit "U_JG_GAF")), (EStr (lit "Gaf")));
  ((EName (lit "U_JG_GAMAL")), (EStr (lit "Gamal")));
  ((EName (lit "U_JG_HAH")), (EStr (lit "Hah")));
  ((EName (lit "U_JG_HANIFI_ROHINGYA_KINNA_YA")), (EStr (lit "Hanifi Rohingya Kinna Ya")));
  ((EName (lit "U_JG_HANIFI_ROHINGYA_PA")), (EStr (lit "Hanifi Rohingya Pa")));
  ((EName (lit "U_JG_HE")), (EStr (lit "He")));
  ((EName (lit "U_JG_HEH")), (EStr (lit "Heh")));
  ((EName (lit "U_JG_HEH_GOAL")), (EStr (lit "Heh Goal")));
  ((EName (lit "U_JG_HETH")), (EStr (lit "Heth")));
  ((EName (lit "U_JG_KAF")), (EStr (lit "Kaf")));
  ((EName (lit "U_JG_KAPH")), (EStr (lit "Kaph")));
  ((EName (lit "U_JG_KHAPH")), (EStr (lit "Khaph")));
  ((EName (lit "U_JG_KNOTTED_HEH")), (EStr (lit "Knotted Heh")));
  ((EName (lit "U_JG_LAM")), (EStr (lit "Lam")));
  ((EName (lit "U_JG_LAMADH")), (EStr (lit "Lamadh")));
  ((EName (lit "U_JG_MALAYALAM_BHA")), (EStr (lit "Malayalam Bha")));
  ((EName (lit "U_JG_MALAYALAM_JA")), (EStr (lit "Malayalam Ja")));
  ((EName (lit "U_JG_MALAYALAM_LLA")), (EStr (lit "Malayalam Lla")));
  ((EName (lit "U_JG_MALAYALAM_LLLA")), (EStr (lit "Malayalam Llla")));
  ((EName (lit "U_JG_MALAYALAM_NGA")), (EStr (lit "Malayalam Nga")));
  ((EName (lit "U_JG_MALAYALAM_NNA")), (EStr (lit "Malayalam Nna")));
  ((EName (lit "U_JG_MALAYALAM_NNNA")), (EStr (lit "Malayalam Nnna")));
  ((EName (lit "U_JG_MALAYALAM_NYA")), (EStr (lit "Malayalam Nya")));
  ((EName (lit "U_JG_MALAYALAM_RA")), (EStr (lit "Malayalam Ra")));
  ((EName (lit "U_JG_MALAYALAM_SSA")), (EStr (lit "Malayalam Ssa")));
  ((EName (lit "U_JG_MALAYALAM_TTA")), (EStr (lit "Malayalam Tta")));
  ((EName (lit "U_JG_MANICHAEAN_ALEPH")), (EStr (lit "Manichaean Aleph")));
  ((EName (lit "U_JG_MANICHAEAN_AYIN")), (EStr (lit "Manichaean Ayin")));
  ((EName (lit "U_JG_MANICHAEAN_BETH")), (EStr (lit "Manichaean Beth")));
  ((EName (lit "U_JG_MANICHAEAN_DALETH")), (EStr (lit "Manichaean Daleth")));
  ((EName (lit "U_JG_MANICHAEAN_DHAMEDH")), (EStr (lit "Manichaean Dhamedh")));
  ((EName (lit "U_JG_MANICHAEAN_FIVE")), (EStr (lit "Manichaean Five")));
  ((EName (lit "U_JG_MANICHAEAN_GIMEL")), (EStr (lit "Manichaean Gimel")));
  ((EName (lit "U_JG_MANICHAEAN_HETH")), (EStr (lit "Manichaean Heth")));
  ((EName (lit "U_JG_MANICHAEAN_HUNDRED")), (EStr (lit "Manichaean Hundred")));
  ((EName (lit "U_JG_MANICHAEAN_KAPH")), (EStr (lit "Manichaean Kaph")));
  ((EName (lit "U_JG_MANICHAEAN_LAMEDH")), (EStr (lit "Manichaean Lamedh")));
  ((EName (lit "U_JG_MANICHAEAN_MEM")), (EStr (lit "Manichaean Mem")));
  ((EName (lit "U_JG_MANICHAEAN_NUN")), (EStr (lit "Manichaean Nun")));
  ((EName (lit "U_JG_MANICHAEAN_ONE")), (EStr (lit "Manichaean One")));
  ((EName (lit "U_JG_MANICHAEAN_PE")), (EStr (lit "Manichaean Pe")));
  ((EName (lit "U_JG_MANICHAEAN_QOPH")), (EStr (lit "Manichaean Qoph")));
  ((EName (lit "U_JG_MANICHAEAN_RESH")), (EStr (lit "Manichaean Resh")));
  ((EName (lit "U_JG_MANICHAEAN_SADHE")), (EStr (lit "Manichaean Sadhe")));
  ((EName (lit "U_JG_MANICHAEAN_SAMEKH")), (EStr (lit "Manichaean Samekh")));
  ((EName (lit "U_JG_MANICHAEAN_TAW")), (EStr (lit "Manichaean Taw")));
  ((EName (lit "U_JG_MANICHAEAN_TEN")), (EStr (lit "Manichaean Ten")));
  ((EName (lit "U_JG_MANICHAEAN_TETH")), (EStr (lit "Manichaean Teth")));
  ((EName (lit "U_JG_MANICHAEAN_THAMEDH")), (EStr (lit "Manichaean Thamedh")));
  ((EName (lit "U_JG_MANICHAEAN_TWENTY")), (EStr (lit "Manichaean Twenty")));
  ((EName (lit "U_JG_MANICHAEAN_WAW")), (EStr (lit "Manichaean Waw")));
  ((EName (lit "U_JG_MANICHAEAN_YODH")), (EStr (lit "Manichaean Yodh")));
  ((EName (lit "U_JG_MANICHAEAN_ZAYIN")), (EStr (lit "Manichaean Zayin")));
  ((EName (lit "U_JG_MEEM")), (EStr (lit "Meem")));
  ((EName (lit "U_JG_MIM")), (EStr (lit "Mim")));
  ((EName (lit "U_JG_NO_JOINING_GROUP")), (EStr (lit "No Joining Group")));
  ((EName (lit "U_JG_NOON")), (EStr (lit "Noon")));
  ((EName (lit "U_JG_NUN")), (EStr (lit "Nun")));
  ((EName (lit "U_JG_NYA")), (EStr (lit "Nya")));
  ((EName (lit "U_JG_PE")), (EStr (lit "Pe")));
  ((EName (lit "U_JG_QAF")), (EStr (lit "Qaf")));
  ((EName (lit "U_JG_QAPH")), (EStr (lit "Qaph")));
  ((EName (lit "U_JG_REH")), (EStr (lit "Reh")));
  ((EName (lit "U_JG_REVERSED_PE")), (EStr (lit "Reversed Pe")));
  ((EName (lit "U_JG_ROHINGYA_YEH")), (EStr (lit "Rohingya Yeh")));
  ((EName (lit "U_JG_SAD")), (EStr (lit "Sad")));
  ((EName (lit "U_JG_SADHE")), (EStr (lit "Sadhe")));
  ((EName (lit "U_JG_SEEN")), (EStr (lit "Seen")));
  ((EName (lit "U_JG_SEMKATH")), (EStr (lit "Semkath")));
  ((EName (lit "U_JG_SHIN")), (EStr (lit "Shin")));
  ((EName (lit "U_JG_STRAIGHT_WAW")), (EStr (lit "Straight Waw")));
  ((EName (lit "U_JG_SWASH_KAF")), (EStr (lit "Swash Kaf")));
  ((EName (lit "U_JG_SYRIAC_WAW")), (EStr (lit "Syriac Waw")));
  ((EName (lit "U_JG_TAH")), (EStr (lit "Tah")));
  ((EName (lit "U_JG_TAW")), (EStr (lit "Taw")));
  ((EName (lit "U_JG_TEH_MARBUTA")), (EStr (lit "Teh Marbuta")));
  ((EName (lit "U_JG_HAMZA_ON_HEH_GOAL")), (EStr (lit "Teh Marbuta Goal")));
  ((EName (lit "U_JG_TETH")), (EStr (lit "Teth")));
  ((EName (lit "U_JG_WAW")), (EStr (lit "Waw")));
  ((EName (lit "U_JG_YEH")), (EStr (lit "Yeh")));
  ((EName (lit "U_JG_YEH_BARREE")), (EStr (lit "Yeh Barree")));
  ((EName (lit "U_JG_YEH_WITH_TAIL")), (EStr (lit "Yeh With Tail")));
  ((EName (lit "U_JG_YUDH")), (EStr (lit "Yudh")));
  ((EName (lit "U_JG_YUDH_HE")), (EStr (lit "Yudh He")));
  ((EName (lit "U_JG_ZAIN")), (EStr (lit "Zain")));
  ((EName (lit "U_JG_ZHAIN")), (EStr (lit "Zhain")))]);
  SAssign (lit "joiningTypeNames") (EDict [
  ((EName (lit "U_JT_JOIN_CAUSING")), (EStr (lit "C")));
  ((EName (lit "U_JT_DUAL_JOINING")), (EStr (lit "D")));
  ((EName (lit "U_JT_LEFT_JOINING")), (EStr (lit "L")));
  ((EName (lit "U_JT_RIGHT_JOINING")), (EStr (lit "R")));
  ((EName (lit "U_JT_TRANSPARENT")), (EStr (lit "T")));
  ((EName (lit "U_JT_NON_JOINING")), (EStr (lit "U")))]);
  SAssign (lit "lineBreakNames") (EDict [
  ((EName (lit "U_LB_AMBIGUOUS")), (EStr (lit "AI")));
  ((EName (lit "U_LB_ALPHABETIC")), (EStr (lit "AL")));
  ((EName (lit "U_LB_BREAK_BOTH")), (EStr (lit "B2")));
  ((EName (lit "U_LB_BREAK_AFTER")), (EStr (lit "BA")));
  ((EName (lit "U_LB_BREAK_BEFORE")), (EStr (lit "BB")));
  ((EName (lit "U_LB_MANDATORY_BREAK")), (EStr (lit "BK")));
  ((EName (lit "U_LB_CONTINGENT_BREAK")), (EStr (lit "CB")));
  ((EName (lit "U_LB_CONDITIONAL_JAPANESE_STARTER")), (EStr (lit "CJ")));
  ((EName (lit "U_LB_CLOSE_PUNCTUATION")), (EStr (lit "CL")));
  ((EName (lit "U_LB_COMBINING_MARK")), (EStr (lit "CM")));
  ((EName (lit "U_LB_CLOSE_PARENTHESIS")), (EStr (lit "CP")));
  ((EName (lit "U_LB_CARRIAGE_RETURN")), (EStr (lit "CR")));
  ((EName (lit "U_LB_E_BASE")), (EStr (lit "EB")));
  ((EName (lit "U_LB_E_MODIFIER")), (EStr (lit "EM")));
  ((EName (lit "U_LB_EXCLAMATION")), (EStr (lit "EX")));
  ((EName (lit "U_LB_GLUE")), (EStr (lit "GL")));
  ((EName (lit "U_LB_H2")), (EStr (lit "H2")));
  ((EName (lit "U_LB_H3")), (EStr (lit "H3")));
  ((EName (lit "U_LB_HEBREW_LETTER")), (EStr (lit "HL")));
  ((EName (lit "U_LB_HYPHEN")), (EStr (lit "HY")));
  ((EName (lit "U_LB_IDEOGRAPHIC")), (EStr (lit "ID")));
  ((EName (lit "U_LB_INSEPARABLE")), (EStr (lit "IN")));
  ((EName (lit "U_LB_INFIX_NUMERIC")), (EStr (lit "IS")));
  ((EName (lit "U_LB_JL")), (EStr (lit "JL")));
  ((EName (lit "U_LB_JT")), (EStr (lit "JT")));
  ((EName (lit "U_LB_JV")), (EStr (lit "JV")));
  ((EName (lit "U_LB_LINE_FEED")), (EStr (lit "LF")));
  ((EName (lit "U_LB_NEXT_LINE")), (EStr (lit "NL")));
  ((EName (lit "U_LB_NONSTARTER")), (EStr (lit "NS")));
  ((EName (lit "U_LB_NUMERIC")), (EStr (lit "NU")));
  ((EName (lit "U_LB_OPEN_PUNCTUATION")), (EStr (lit "OP")));
  ((EName (lit "U_LB_POSTFIX_NUMERIC")), (EStr (lit "PO")));
  ((EName (lit "U_LB_PREFIX_NUMERIC")), (EStr (lit "PR")));
  ((EName (lit "U_LB_QUOTATION")), (EStr (lit "QU")));
  ((EName (lit "U_LB_REGIONAL_INDICATOR")), (EStr (lit "RI")));
  ((EName (lit "U_LB_COMPLEX_CONTEXT")), (EStr (lit "SA")));
  ((EName (lit "U_LB_SURROGATE")), (EStr (lit "SG")));
  ((EName (lit "U_LB_SPACE")), (EStr (lit "SP")));
  ((EName (lit "U_LB_BREAK_SYMBOLS")), (EStr (lit "SY")));
  ((EName (lit "U_LB_WORD_JOINER")), (EStr (lit "WJ")));
  ((EName (lit "U_LB_UNKNOWN")), (EStr (lit "XX")));
  ((EName (lit "U_LB_ZWSPACE")), (EStr (lit "ZW")));
  ((EName (lit "U_LB_ZWJ")), (EStr (lit "ZWJ")))]);
  SAssign (lit "numberTypeNames") (EDict [
  ((EName (lit "U_NT_DECIMAL")), (EStr (lit "De")));
  ((EName (lit "U_NT_DIGIT")), (EStr (lit "Di")));
  ((EName (lit "U_NT_NONE")), (EStr (lit "None")));
  ((EName (lit "U_NT_NUMERIC")), (EStr (lit "Nu")))]);
  SAssign (lit "sentenceBreakNames") (EDict [
  ((EName (lit "U_SB_ATERM")), (EStr (lit "AT")));
  ((EName (lit "U_SB_CLOSE")), (EStr (lit "CL")));
  ((EName (lit "U_SB_CR")), (EStr (lit "CR")));
  ((EName (lit "U_SB_EXTEND")), (EStr (lit "EX")));
  ((EName (lit "U_SB_FORMAT")), (EStr (lit "FO")));
  ((EName (lit "U_SB_OLETTER")), (EStr (lit "LE")));
  ((EName (lit "U_SB_LF")), (EStr (lit "LF")));
  ((EName (lit "U_SB_LOWER")), (EStr (lit "LO")));
  ((EName (lit "U_SB_NUMERIC")), (EStr (lit "NU")));
  ((EName (lit "U_SB_SCONTINUE")), (EStr (lit "SC")));
  ((EName (lit "U_SB_SEP")), (EStr (lit "SE")));
  ((EName (lit "U_SB_SP")), (EStr (lit "SP")));
  ((EName (lit "U_SB_STERM")), (EStr (lit "ST")));
  ((EName (lit "U_SB_UPPER")), (EStr (lit "UP")));
  ((EName (lit "U_SB_OTHER")), (EStr (lit "XX")))]);
  SAssign (lit "scriptNames") (EDict [
  ((EName (lit "USCRIPT_ADLAM")), (EStr (lit "Adlm")));
  ((EName (lit "USCRIPT_AFAKA")), (EStr (lit "Afak")));
  ((EName (lit "USCRIPT_CAUCASIAN_ALBANIAN")), (EStr (lit "Aghb")));
  ((EName (lit "USCRIPT_AHOM")), (EStr (lit "Ahom")));
  ((EName (lit "USCRIPT_ARABIC")), (EStr (lit "Arab")));
  ((EName (lit "USCRIPT_IMPERIAL_ARAMAIC")), (EStr (lit "Armi")));
  ((EName (lit "USCRIPT_ARMENIAN")), (EStr (lit "Armn")));
  ((EName (lit "USCRIPT_AVESTAN")), (EStr (lit "Avst")));
  ((EName (lit "USCRIPT_BALINESE")), (EStr (lit "Bali")));
  ((EName (lit "USCRIPT_BAMUM")), (EStr (lit "Bamu")));
  ((EName (lit "USCRIPT_BASSA_VAH")), (EStr (lit "Bass")));
  ((EName (lit "USCRIPT_BATAK")), (EStr (lit "Batk")));
  ((EName (lit "USCRIPT_BENGALI")), (EStr (lit "Beng")));
  ((EName (lit "USCRIPT_BHAIKSUKI")), (EStr (lit "Bhks")));
  ((EName (lit "USCRIPT_BLISSYMBOLS")), (EStr (lit "Blis")));
  ((EName (lit "USCRIPT_BOPOMOFO")), (EStr (lit "Bopo")));
  ((EName (lit "USCRIPT_BRAHMI")), (EStr (lit "Brah")));
  ((EName (lit "USCRIPT_BRAILLE")), (EStr (lit "Brai")));
  ((EName (lit "USCRIPT_BUGINESE")), (EStr (lit "Bugi")));
  ((EName (lit "USCRIPT_BUHID")), (EStr (lit "Buhd")));
  ((EName (lit "USCRIPT_CHAKMA")), (EStr (lit "Cakm")));
  ((EName (lit "USCRIPT_CANADIAN_ABORIGINAL")), (EStr (lit "Cans")));
  ((EName (lit "USCRIPT_CARIAN")), (EStr (lit "Cari")));
  ((EName (lit "USCRIPT_CHAM")), (EStr (lit "Cham")));
  ((EName (lit "USCRIPT_CHEROKEE")), (EStr (lit "Cher")));
  ((EName (lit "USCRIPT_CHORASMIAN")), (EStr (lit "Chrs")));
  ((EName (lit "USCRIPT_CIRTH")), (EStr (lit "Cirt")));
  ((EName (lit "USCRIPT_COPTIC")), (EStr (lit "Copt")));
  ((EName (lit "USCRIPT_CYPRIOT")), (EStr (lit "Cprt")));
  ((EName (lit "USCRIPT_CYRILLIC")), (EStr (lit "Cyrl")));
  ((EName (lit "USCRIPT_OLD_CHURCH_SLAVONIC_CYRILLIC")), (EStr (lit "Cyrs")));
  ((EName (lit "USCRIPT_DEVANAGARI")), (EStr (lit "Deva")));
  ((EName (lit "USCRIPT_DIVES_AKURU")), (EStr (lit "Diak")));
  ((EName (lit "USCRIPT_DOGRA")), (EStr (lit "Dogr")));
  ((EName (lit "USCRIPT_DESERET")), (EStr (lit "Dsrt")));
  ((EName (lit "USCRIPT_DUPLOYAN")), (EStr (lit "Dupl")));
  ((EName (lit "USCRIPT_DEMOTIC_EGYPTIAN")), (EStr (lit "Egyd")));
  ((EName (lit "USCRIPT_HIERATIC_EGYPTIAN")), (EStr (lit "Egyh")));
  ((EName (lit "USCRIPT_EGYPTIAN_HIEROGLYPHS")), (EStr (lit "Egyp")));
  ((EName (lit "USCRIPT_ELBASAN")), (EStr (lit "Elba")));
  ((EName (lit "USCRIPT_ELYMAIC")), (EStr (lit "Elym")));
  ((EName (lit "USCRIPT_ETHIOPIC")), (EStr (lit "Ethi")));
  ((EName (lit "USCRIPT_KHUTSURI")), (EStr (lit "Geok")));
  ((EName (lit "USCRIPT_GEORGIAN")), (EStr (lit "Geor")));
  ((EName (lit "USCRIPT_GLAGOLITIC")), (EStr (lit "Glag")));
  ((EName (lit "USCRIPT_GUNJALA_GONDI")), (EStr (lit "Gong")));
  ((EName (lit "USCRIPT_MASARAM_GONDI")), (EStr (lit "Gonm")));
  ((EName (lit "USCRIPT_GOTHIC")), (EStr (lit "Goth")));
  ((EName (lit "USCRIPT_GRANTHA")), (EStr (lit "Gran")));
  ((EName (lit "USCRIPT_GREEK")), (EStr (lit "Grek")));
  ((EName (lit "USCRIPT_GUJARATI")), (EStr (lit "Gujr")));
  ((EName (lit "USCRIPT_GURMUKHI")), (EStr (lit "Guru")));
  ((EName (lit "USCRIPT_HAN_WITH_BOPOMOFO")), (EStr (lit "Hanb")));
  ((EName (lit "USCRIPT_HANGUL")), (EStr (lit "Hang")));
  ((EName (lit "USCRIPT_HAN")), (EStr (lit "Hani")));
  ((EName (lit "USCRIPT_HANUNOO")), (EStr (lit "Hano")));
  ((EName (lit "USCRIPT_SIMPLIFIED_HAN")), (EStr (lit "Hans")));
  ((EName (lit "USCRIPT_TRADITIONAL_HAN")), (EStr (lit "Hant")));
  ((EName (lit "USCRIPT_HATRAN")), (EStr (lit "Hatr")));
  ((EName (lit "USCRIPT_HEBREW")), (EStr (lit "Hebr")));
  ((EName (lit "USCRIPT_HIRAGANA")), (EStr (lit "Hira")));
  ((EName (lit "USCRIPT_ANATOLIAN_HIEROGLYPHS")), (EStr (lit "Hluw")));
  ((EName (lit "USCRIPT_PAHAWH_HMONG")), (EStr (lit "Hmng")));
  ((EName (lit "USCRIPT_NYIAKENG_PUACHUE_HMONG")), (EStr (lit "Hmnp")));
  ((EName (lit "USCRIPT_KATAKANA_OR_HIRAGANA")), (EStr (lit "Hrkt")));
  ((EName (lit "USCRIPT_OLD_HUNGARIAN")), (EStr (lit "Hung")));
  ((EName (lit "USCRIPT_HARAPPAN_INDUS")), (EStr (lit "Inds")));
  ((EName (lit "USCRIPT_OLD_ITALIC")), (EStr (lit "Ital")));
  ((EName (lit "USCRIPT_JAMO")), (EStr (lit "Jamo")));
  ((EName (lit "USCRIPT_JAVANESE")), (EStr (lit "Java")));
  ((EName (lit "USCRIPT_JAPANESE")), (EStr (lit "Jpan")));
  ((EName (lit "USCRIPT_JURCHEN")), (EStr (lit "Jurc")));
  ((EName (lit "USCRIPT_KAYAH_LI")), (EStr (lit "Kali")));
  ((EName (lit "USCRIPT_KATAKANA")), (EStr (lit "Kana")));
  ((EName (lit "USCRIPT_KHAROSHTHI")), (EStr (lit "Khar")));
  ((EName (lit "USCRIPT_KHMER")), (EStr (lit "Khmr")));
  ((EName (lit "USCRIPT_KHOJKI")), (EStr (lit "Khoj")));
  ((EName (lit "USCRIPT_KHITAN_SMALL_SCRIPT")), (EStr (lit "Kits")));
  ((EName (lit "USCRIPT_KANNADA")), (EStr (lit "Knda")));
  ((EName (lit "USCRIPT_KOREAN")), (EStr (lit "Kore")));
  ((EName (lit "USCRIPT_KPELLE")), (EStr (lit "Kpel")));
  ((EName (lit "USCRIPT_KAITHI")), (EStr (lit "Kthi")));
  ((EName (lit "USCRIPT_LANNA")), (EStr (lit "Lana")));
  ((EName (lit "USCRIPT_LAO")), (EStr (lit "Laoo")));
  ((EName (lit "USCRIPT_LATIN_FRAKTUR")), (EStr (lit "Latf")));
  ((EName (lit "USCRIPT_LATIN_GAELIC")), (EStr (lit "Latg")));
  ((EName (lit "USCRIPT_LATIN")), (EStr (lit "Latn")));
  ((EName (lit "USCRIPT_LEPCHA")), (EStr (lit "Lepc")));
  ((EName (lit "USCRIPT_LIMBU")), (EStr (lit "Limb")));
  ((EName (lit "USCRIPT_LINEAR_A")), (EStr (lit "Lina")));
  ((EName (lit "USCRIPT_LINEAR_B")), (EStr (lit "Linb")));
  ((EName (lit "USCRIPT_LISU")), (EStr (lit "Lisu")));
  ((EName (lit "USCRIPT_LOMA")), (EStr (lit "Loma")));
  ((EName (lit "USCRIPT_LYCIAN")), (EStr (lit "Lyci")));
  ((EName (lit "USCRIPT_LYDIAN")), (EStr (lit "Lydi")));
  ((EName (lit "USCRIPT_MAHAJANI")), (EStr (lit "Mahj")));
  ((EName (lit "USCRIPT_MAKASAR")), (EStr (lit "Maka")));
  ((EName (lit "USCRIPT_MANDAIC")), (EStr (lit "Mand")));
  ((EName (lit "USCRIPT_MANICHAEAN")), (EStr (lit "Mani")));
  ((EName (lit "USCRIPT_MARCHEN")), (EStr (lit "Marc")));
  ((EName (lit "USCRIPT_MAYAN_HIEROGLYPHS")), (EStr (lit "Maya")));
  ((EName (lit "USCRIPT_MEDEFAIDRIN")), (EStr (lit "Medf")));
  ((EName (lit "USCRIPT_MENDE")), (EStr (lit "Mend")));
  ((EName (lit "USCRIPT_MEROITIC_CURSIVE")), (EStr (lit "Merc")));
  ((EName (lit "USCRIPT_MEROITIC_HIEROGLYPHS")), (EStr (lit "Mero")));
  ((EName (lit "USCRIPT_MALAYALAM")), (EStr (lit "Mlym")));
  ((EName (lit "USCRIPT_MODI")), (EStr (lit "Modi")));
  ((EName (lit "USCRIPT_MONGOLIAN")), (EStr (lit "Mong")));
  ((EName (lit "USCRIPT_MOON")), (EStr (lit "Moon")));
  ((EName (lit "USCRIPT_MRO")), (EStr (lit "Mroo")));
  ((EName (lit "USCRIPT_MEITEI_MAYEK")), (EStr (lit "Mtei")));
  ((EName (lit "USCRIPT_MULTANI")), (EStr (lit "Mult")));
  ((EName (lit "USCRIPT_MYANMAR")), (EStr (lit "Mymr")));
  ((EName (lit "USCRIPT_NANDINAGARI")), (EStr (lit "Nand")));
  ((EName (lit "USCRIPT_OLD_NORTH_ARABIAN")), (EStr (lit "Narb")));
  ((EName (lit "USCRIPT_NABATAEAN")), (EStr (lit "Nbat")));
  ((EName (lit "USCRIPT_NEWA")), (EStr (lit "Newa")));
  ((EName (lit "USCRIPT_NAKHI_GEBA")), (EStr (lit "Nkgb")));
  ((EName (lit "USCRIPT_NKO")), (EStr (lit "Nkoo")));
  ((EName (lit "USCRIPT_NUSHU")), (EStr (lit "Nshu")));
  ((EName (lit "USCRIPT_OGHAM")), (EStr (lit "Ogam")));
  ((EName (lit "USCRIPT_OL_CHIKI")), (EStr (lit "Olck")));
  ((EName (lit "USCRIPT_ORKHON")), (EStr (lit "Orkh")));
  ((EName (lit "USCRIPT_ORIYA")), (EStr (lit "Orya")));
  ((EName (lit "USCRIPT_OSAGE")), (EStr (lit "Osge")));
  ((EName (lit "USCRIPT_OSMANYA")), (EStr (lit "Osma")));
  ((EName (lit "USCRIPT_PALMYRENE")), (EStr (lit "Palm")));
  ((EName (lit "USCRIPT_PAU_CIN_HAU")), (EStr (lit "Pauc")));
  ((EName (lit "USCRIPT_OLD_PERMIC")), (EStr (lit "Perm")));
  ((EName (lit "USCRIPT_PHAGS_PA")), (EStr (lit "Phag")));
  ((EName (lit "USCRIPT_INSCRIPTIONAL_PAHLAVI")), (EStr (lit "Phli")));
  ((EName (lit "USCRIPT_PSALTER_PAHLAVI")), (EStr (lit "Phlp")));
  ((EName (lit "USCRIPT_BOOK_PAHLAVI")), (EStr (lit "Phlv")));
  ((EName (lit "USCRIPT_PHOENICIAN")), (EStr (lit "Phnx")));
  ((EName (lit "USCRIPT_MIAO")), (EStr (lit "Plrd")));
  ((EName (lit "USCRIPT_INSCRIPTIONAL_PARTHIAN")), (EStr (lit "Prti")));
  ((EName (lit "USCRIPT_REJANG")), (EStr (lit "Rjng")));
  ((EName (lit "USCRIPT_HANIFI_ROHINGYA")), (EStr (lit "Rohg")));
  ((EName (lit "USCRIPT_RONGORONGO")), (EStr (lit "Roro")));
  ((EName (lit "USCRIPT_RUNIC")), (EStr (lit "Runr")));
  ((EName (lit "USCRIPT_SAMARITAN")), (EStr (lit "Samr")));
  ((EName (lit "USCRIPT_SARATI")), (EStr (lit "Sara")));
  ((EName (lit "USCRIPT_OLD_SOUTH_ARABIAN")), (EStr (lit "Sarb")));
  ((EName (lit "USCRIPT_SAURASHTRA")), (EStr (lit "Saur")));
  ((EName (lit "USCRIPT_SIGN_WRITING")), (EStr (lit "Sgnw")));
  ((EName (lit "USCRIPT_SHAVIAN")), (EStr (lit "Shaw")));
  ((EName (lit "USCRIPT_SHARADA")), (EStr (lit "Shrd")));
  ((EName (lit "USCRIPT_SIDDHAM")), (EStr (lit "Sidd")));
  ((EName (lit "USCRIPT_KHUDAWADI")), (EStr (lit "Sind")));
  ((EName (lit "USCRIPT_SINHALA")), (EStr (lit "Sinh")));
  ((EName (lit "USCRIPT_SOGDIAN")), (EStr (lit "Sogd")));
  ((EName (lit "USCRIPT_OLD_SOGDIAN")), (EStr (lit "Sogo")));
  ((EName (lit "USCRIPT_SORA_SOMPENG")), (EStr (lit "Sora")));
  ((EName (lit "USCRIPT_SOYOMBO")), (EStr (lit "Soyo")));
  ((EName (lit "USCRIPT_SUNDANESE")), (EStr (lit "Sund")));
  ((EName (lit "USCRIPT_SYLOTI_NAGRI")), (EStr (lit "Sylo")));
  ((EName (lit "USCRIPT_SYRIAC")), (EStr (lit "Syrc")));
  ((EName (lit "USCRIPT_ESTRANGELO_SYRIAC")), (EStr (lit "Syre")));
  ((EName (lit "USCRIPT_WESTERN_SYRIAC")), (EStr (lit "Syrj")));
  ((EName (lit "USCRIPT_EASTERN_SYRIAC")), (EStr (lit "Syrn")));
  ((EName (lit "USCRIPT_TAGBANWA")), (EStr (lit "Tagb")));
  ((EName (lit "USCRIPT_TAKRI")), (EStr (lit "Takr")));
  ((EName (lit "USCRIPT_TAI_LE")), (EStr (lit "Tale")));
  ((EName (lit "USCRIPT_NEW_TAI_LUE")), (EStr (lit "Talu")));
  ((EName (lit "USCRIPT_TAMIL")), (EStr (lit "Taml")));
  ((EName (lit "USCRIPT_TANGUT")), (EStr (lit "Tang")));
  ((EName (lit "USCRIPT_TAI_VIET")), (EStr (lit "Tavt")));
  ((EName (lit "USCRIPT_TELUGU")), (EStr (lit "Telu")));
  ((EName (lit "USCRIPT_TENGWAR")), (EStr (lit "Teng")));
  ((EName (lit "USCRIPT_TIFINAGH")), (EStr (lit "Tfng")));
  ((EName (lit "USCRIPT_TAGALOG")), (EStr (lit "Tglg")));
  ((EName (lit "USCRIPT_THAANA")), (EStr (lit "Thaa")));
  ((EName (lit "USCRIPT_THAI")), (EStr (lit "Thai")));
  ((EName (lit "USCRIPT_TIBETAN")), (EStr (lit "Tibt")));
  ((EName (lit "USCRIPT_TIRHUTA")), (EStr (lit "Tirh")));
  ((EName (lit "USCRIPT_UGARITIC")), (EStr (lit "Ugar")));
  ((EName (lit "USCRIPT_VAI")), (EStr (lit "Vaii")));
  ((EName (lit "USCRIPT_VISIBLE_SPEECH")), (EStr (lit "Visp")));
  ((EName (lit "USCRIPT_WARANG_CITI")), (EStr (lit "Wara")));
  ((EName (lit "USCRIPT_WANCHO")), (EStr (lit "Wcho")));
  ((EName (lit "USCRIPT_WOLEAI")), (EStr (lit "Wole")));
  ((EName (lit "USCRIPT_OLD_PERSIAN")), (EStr (lit "Xpeo")));
  ((EName (lit "USCRIPT_CUNEIFORM")), (EStr (lit "Xsux")));
  ((EName (lit "USCRIPT_YEZIDI")), (EStr (lit "Yezi")));
  ((EName (lit "USCRIPT_YI")), (EStr (lit "Yiii")));
  ((EName (lit "USCRIPT_ZANABAZAR_SQUARE")), (EStr (lit "Zanb")));
  ((EName (lit "USCRIPT_INHERITED")), (EStr (lit "Zinh")));
  ((EName (lit "USCRIPT_MATHEMATICAL_NOTATION")), (EStr (lit "Zmth")));
  ((EName (lit "USCRIPT_SYMBOLS_EMOJI")), (EStr (lit "Zsye")));
  ((EName (lit "USCRIPT_SYMBOLS")), (EStr (lit "Zsym")));
  ((EName (lit "USCRIPT_UNWRITTEN_LANGUAGES")), (EStr (lit "Zxxx")));
  ((EName (lit "USCRIPT_COMMON")), (EStr (lit "Zyyy")));
  ((EName (lit "USCRIPT_UNKNOWN")), (EStr (lit "Zzzz")))]);
  SAssign (lit "verticalOrientationNames") (EDict [
  ((EName (lit "U_VO_ROTATED")), (EStr (lit "R")));
  ((EName (lit "U_VO_TRANSFORMED_ROTATED")), (EStr (lit "Tr")));
  ((EName (lit "U_VO_TRANSFORMED_UPRIGHT")), (EStr (lit "Tu")));
  ((EName (lit "U_VO_UPRIGHT")), (EStr (lit "U")))]);
  SAssign (lit "wordBreakNames") (EDict [
  ((EName (lit "U_WB_CR")), (EStr (lit "CR")));
  ((EName (lit "U_WB_DOUBLE_QUOTE")), (EStr (lit "DQ")));
  ((EName (lit "U_WB_E_BASE")), (EStr (lit "EB")));
  ((EName (lit "U_WB_E_BASE_GAZ")), (EStr (lit "EBG")));
  ((EName (lit "U_WB_E_MODIFIER")), (EStr (lit "EM")));
  ((EName (lit "U_WB_EXTENDNUMLET")), (EStr (lit "EX")));
  ((EName (lit "U_WB_EXTEND")), (EStr (lit "Extend")));
  ((EName (lit "U_WB_FORMAT")), (EStr (lit "FO")));
  ((EName (lit "U_WB_GLUE_AFTER_ZWJ")), (EStr (lit "GAZ")));
  ((EName (lit "U_WB_HEBREW_LETTER")), (EStr (lit "HL")));
  ((EName (lit "U_WB_KATAKANA")), (EStr (lit "KA")));
  ((EName (lit "U_WB_ALETTER")), (EStr (lit "LE")));
  ((EName (lit "U_WB_LF")), (EStr (lit "LF")));
  ((EName (lit "U_WB_MIDNUMLET")), (EStr (lit "MB")));
  ((EName (lit "U_WB_MIDLETTER")), (EStr (lit "ML")));
  ((EName (lit "U_WB_MIDNUM")), (EStr (lit "MN")));
  ((EName (lit "U_WB_NEWLINE")), (EStr (lit "NL")));
  ((EName (lit "U_WB_NUMERIC")), (EStr (lit "NU")));
  ((EName (lit "U_WB_REGIONAL_INDICATOR")), (EStr (lit "RI")));
  ((EName (lit "U_WB_SINGLE_QUOTE")), (EStr (lit "SQ")));
  ((EName (lit "U_WB_WSEGSPACE")), (EStr (lit "WSegSpace")));
  ((EName (lit "U_WB_OTHER")), (EStr (lit "XX")));
  ((EName (lit "U_WB_ZWJ")), (EStr (lit "ZWJ")))])].
Definition UCDTypeDictionaries_env : dict pval := Eval vm_compute in ok_env (exec UCDTypeDictionaries_src).
Lemma UCDTypeDictionaries_is : exec UCDTypeDictionaries_src = Ok UCDTypeDictionaries_env.
Proof. vm_cast_no_check (eq_refl (Ok UCDTypeDictionaries_env)). Qed.

(** CaseProps.py:14-99 *)
Definition CaseProps_src : list stmt := [
  SAssign (lit "UCASE_IX_INDEX_TOP") (EInt 0);
  SAssign (lit "UCASE_IX_LENGTH") (EInt 1);
  SAssign (lit "UCASE_IX_TRIE_SIZE") (EInt 2);
  SAssign (lit "UCASE_IX_EXC_LENGTH") (EInt 3);
  SAssign (lit "UCASE_IX_UNFOLD_LENGTH") (EInt 4);
  SAssign (lit "UCASE_IX_MAX_FULL_LENGTH") (EInt 15);
  SAssign (lit "UCASE_IX_TOP") (EInt 16);
  SAssign (lit "UCASE_TYPE_MASK") (EInt 3);
  SAssign (lit "UCASE_NONE") (EInt 0);
  SAssign (lit "UCASE_LOWER") (EInt 1);
  SAssign (lit "UCASE_UPPER") (EInt 2);
  SAssign (lit "UCASE_TITLE") (EInt 3);
  SAssign (lit "UCASE_IGNORABLE") (EInt 4);
  SAssign (lit "UCASE_EXCEPTION") (EInt 8);
  SAssign (lit "UCASE_SENSITIVE") (EInt 16);
  SAssign (lit "UCASE_DOT_MASK") (EInt 96);
  SAssign (lit "UCASE_NO_DOT") (EInt 0);
  SAssign (lit "UCASE_SOFT_DOTTED") (EInt 32);
  SAssign (lit "UCASE_ABOVE") (EInt 64);
  SAssign (lit "UCASE_OTHER_ACCENT") (EInt 96);
  SAssign (lit "UCASE_PROPS_BITS") (EInt 16);
  SAssign (lit "UCASE_DELTA_BITS") (EInt 9);
  SAssign (lit "UCASE_DELTA_SHIFT") (EInt 7);
  SAssign (lit "UCASE_DELTA_MASK") (EInt 65408);
  SAssign (lit "UCASE_MAX_DELTA") (EInt 255);
  SAssign (lit "UCASE_MIN_DELTA") (EBin OpSub (ENeg (EName (lit "UCASE_MAX_DELTA"))) (EInt 1));
  SAssign (lit "UCASE_EXC_SHIFT") (EInt 4);
  SAssign (lit "UCASE_EXC_MASK") (EInt 65520);
  SAssign (lit "UCASE_MAX_EXCEPTIONS") (EBin OpAdd (EBin OpShr (EName (lit "UCASE_EXC_MASK")) (EName (lit "UCASE_EXC_SHIFT"))) (EInt 1));
  SAssign (lit "UCASE_EXC_LOWER") (EInt 0);
  SAssign (lit "UCASE_EXC_FOLD") (EInt 1);
  SAssign (lit "UCASE_EXC_UPPER") (EInt 2);
  SAssign (lit "UCASE_EXC_TITLE") (EInt 3);
  SAssign (lit "UCASE_EXC_DELTA") (EInt 4);
  SAssign (lit "UCASE_EXC_5") (EInt 5);
  SAssign (lit "UCASE_EXC_CLOSURE") (EInt 6);
  SAssign (lit "UCASE_EXC_FULL_MAPPINGS") (EInt 7);
  SAssign (lit "UCASE_EXC_ALL_SLOTS") (EInt 8);
  SAssign (lit "UCASE_EXC_DOUBLE_SLOTS") (EInt 256);
  SAssign (lit "UCASE_EXC_NO_SIMPLE_CASE_FOLDING") (EInt 512);
  SAssign (lit "UCASE_EXC_DELTA_IS_NEGATIVE") (EInt 1024);
  SAssign (lit "UCASE_EXC_SENSITIVE") (EInt 2048);
  SAssign (lit "UCASE_EXC_DOT_SHIFT") (EInt 7);
  SAssign (lit "UCASE_EXC_DOT_MASK") (EBin OpShl (EName (lit "UCASE_DOT_MASK")) (EName (lit "UCASE_EXC_DOT_SHIFT")));
  SAssign (lit "UCASE_EXC_NO_DOT") (EInt 0);
  SAssign (lit "UCASE_EXC_SOFT_DOTTED") (EInt 4096);
  SAssign (lit "UCASE_EXC_ABOVE") (EInt 8192);
  SAssign (lit "UCASE_EXC_OTHER_ACCENT") (EInt 12288);
  SAssign (lit "UCASE_EXC_CONDITIONAL_SPECIAL") (EInt 16384);
  SAssign (lit "UCASE_EXC_CONDITIONAL_FOLD") (EInt 32768);
  SAssign (lit "UCASE_FULL_LOWER") (EInt 15);
  SAssign (lit "UCASE_FULL_FOLDING") (EInt 240);
  SAssign (lit "UCASE_FULL_UPPER") (EInt 3840);
  SAssign (lit "UCASE_FULL_TITLE") (EInt 61440);
  SAssign (lit "UCASE_FULL_MAPPINGS_MAX_LENGTH") (EBin OpMul (EInt 4) (EInt 15));
  SAssign (lit "UCASE_CLOSURE_MAX_LENGTH") (EInt 15);
  SAssign (lit "UCASE_UNFOLD_ROWS") (EInt 0);
  SAssign (lit "UCASE_UNFOLD_ROW_WIDTH") (EInt 1);
  SAssign (lit "UCASE_UNFOLD_STRING_WIDTH") (EInt 2)].
Definition CaseProps_env : dict pval := Eval vm_compute in ok_env (exec CaseProps_src).
Lemma CaseProps_is : exec CaseProps_src = Ok CaseProps_env.
Proof. vm_cast_no_check (eq_refl (Ok CaseProps_env)). Qed.

(** BidiProps.py:18-67 *)
Definition BidiProps_src : list stmt := [
  SAssign (lit "UBIDI_IX_INDEX_TOP") (EInt 0);
  SAssign (lit "UBIDI_IX_LENGTH") (EInt 1);
  SAssign (lit "UBIDI_IX_TRIE_SIZE") (EInt 2);
  SAssign (lit "UBIDI_IX_MIRROR_LENGTH") (EInt 3);
  SAssign (lit "UBIDI_IX_JG_START") (EInt 4);
  SAssign (lit "UBIDI_IX_JG_LIMIT") (EInt 5);
  SAssign (lit "UBIDI_IX_JG_START2") (EInt 6);
  SAssign (lit "UBIDI_IX_JG_LIMIT2") (EInt 7);
  SAssign (lit "UBIDI_MAX_VALUES_INDEX") (ETuple [(EInt 15)]);
  SAssign (lit "UBIDI_IX_TOP") (EInt 16);
  SAssign (lit "UBIDI_CLASS_SHIFT") (EInt 0);
  SAssign (lit "UBIDI_JT_SHIFT") (EInt 5);
  SAssign (lit "UBIDI_BPT_SHIFT") (EInt 8);
  SAssign (lit "UBIDI_JOIN_CONTROL_SHIFT") (EInt 10);
  SAssign (lit "UBIDI_BIDI_CONTROL_SHIFT") (EInt 11);
  SAssign (lit "UBIDI_IS_MIRRORED_SHIFT") (EInt 12);
  SAssign (lit "UBIDI_MIRROR_DELTA_SHIFT") (EInt 13);
  SAssign (lit "UBIDI_MIRROR_DELTA_BITS") (EBin OpSub (EInt 16) (EName (lit "UBIDI_MIRROR_DELTA_SHIFT")));
  SAssign (lit "UBIDI_MAX_JG_SHIFT") (EInt 16);
  SAssign (lit "UBIDI_CLASS_MASK") (EInt 31);
  SAssign (lit "UBIDI_JT_MASK") (EInt 224);
  SAssign (lit "UBIDI_BPT_MASK") (EInt 768);
  SAssign (lit "UBIDI_MAX_JG_MASK") (EInt 16711680);
  SAssign (lit "UBIDI_ESC_MIRROR_DELTA") (ENeg (EInt 4));
  SAssign (lit "UBIDI_MIN_MIRROR_DELTA") (ENeg (EInt 3));
  SAssign (lit "UBIDI_MAX_MIRROR_DELTA") (EInt 3);
  SAssign (lit "UBIDI_MIRROR_INDEX_SHIFT") (EInt 21);
  SAssign (lit "UBIDI_MAX_MIRROR_INDEX") (EInt 2047)].
Definition BidiProps_env : dict pval := Eval vm_compute in ok_env (exec BidiProps_src).
Lemma BidiProps_is : exec BidiProps_src = Ok BidiProps_env.
Proof. vm_cast_no_check (eq_refl (Ok BidiProps_env)). Qed.
