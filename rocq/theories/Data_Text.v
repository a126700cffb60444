(** * The text of the modules of constants of UnicodeData.

    Written by tools/gen_text.py, which copies the lines of each file. *)
From Coq Require Import List String.
Import ListNotations.
Open Scope string_scope.

(** uchar_h.py:1-835 *)
Definition uchar_h_lines : list string := [
"""""""/";
"uchar_h.py, based on uchar.h from ICU";
"";
"Generated by HeaderToPtyhon.py on August 26, 2021 at 11:27:13 AM HST";
"""""""";
"";
"def U_MASK(x: int) -> int: return 1<<x";
"";
"U_UNICODE_VERSION = ""13.0""";
"UCHAR_MIN_VALUE = 0";
"UCHAR_MAX_VALUE = 0x10ffff";
"UCHAR_ALPHABETIC = 0";
"UCHAR_BINARY_START = UCHAR_ALPHABETIC";
"UCHAR_ASCII_HEX_DIGIT = 1";
"UCHAR_BIDI_CONTROL = 2";
"UCHAR_BIDI_MIRRORED = 3";
"UCHAR_DASH = 4";
"UCHAR_DEFAULT_IGNORABLE_CODE_POINT = 5";
"UCHAR_DEPRECATED = 6";
"UCHAR_DIACRITIC = 7";
"UCHAR_EXTENDER = 8";
"UCHAR_FULL_COMPOSITION_EXCLUSION = 9";
"UCHAR_GRAPHEME_BASE = 10";
"UCHAR_GRAPHEME_EXTEND = 11";
"UCHAR_GRAPHEME_LINK = 12";
"UCHAR_HEX_DIGIT = 13";
"UCHAR_HYPHEN = 14";
"UCHAR_ID_CONTINUE = 15";
"UCHAR_ID_START = 16";
"UCHAR_IDEOGRAPHIC = 17";
"UCHAR_IDS_BINARY_OPERATOR = 18";
"UCHAR_IDS_TRINARY_OPERATOR = 19";
"UCHAR_JOIN_CONTROL = 20";
"UCHAR_LOGICAL_ORDER_EXCEPTION = 21";
"UCHAR_LOWERCASE = 22";
"UCHAR_MATH = 23";
"UCHAR_NONCHARACTER_CODE_POINT = 24";
"UCHAR_QUOTATION_MARK = 25";
"UCHAR_RADICAL = 26";
"UCHAR_SOFT_DOTTED = 27";
"UCHAR_TERMINAL_PUNCTUATION = 28";
"UCHAR_UNIFIED_IDEOGRAPH = 29";
"UCHAR_UPPERCASE = 30";
"UCHAR_WHITE_SPACE = 31";
"UCHAR_XID_CONTINUE = 32";
"UCHAR_XID_START = 33";
"UCHAR_CASE_SENSITIVE = 34";
"UCHAR_S_TERM = 35";
"UCHAR_VARIATION_SELECTOR = 36";
"UCHAR_NFD_INERT = 37";
"UCHAR_NFKD_INERT = 38";
"UCHAR_NFC_INERT = 39";
"UCHAR_NFKC_INERT = 40";
"UCHAR_SEGMENT_STARTER = 41";
"UCHAR_PATTERN_SYNTAX = 42";
"UCHAR_PATTERN_WHITE_SPACE = 43";
"UCHAR_POSIX_ALNUM = 44";
"UCHAR_POSIX_BLANK = 45";
"UCHAR_POSIX_GRAPH = 46";
"UCHAR_POSIX_PRINT = 47";
"UCHAR_POSIX_XDIGIT = 48";
"UCHAR_CASED = 49";
"UCHAR_CASE_IGNORABLE = 50";
"UCHAR_CHANGES_WHEN_LOWERCASED = 51";
"UCHAR_CHANGES_WHEN_UPPERCASED = 52";
"UCHAR_CHANGES_WHEN_TITLECASED = 53";
"UCHAR_CHANGES_WHEN_CASEFOLDED = 54";
"UCHAR_CHANGES_WHEN_CASEMAPPED = 55";
"UCHAR_CHANGES_WHEN_NFKC_CASEFOLDED = 56";
"UCHAR_EMOJI = 57";
"UCHAR_EMOJI_PRESENTATION = 58";
"UCHAR_EMOJI_MODIFIER = 59";
"UCHAR_EMOJI_MODIFIER_BASE = 60";
"UCHAR_EMOJI_COMPONENT = 61";
"UCHAR_REGIONAL_INDICATOR = 62";
"UCHAR_PREPENDED_CONCATENATION_MARK = 63";
"UCHAR_EXTENDED_PICTOGRAPHIC = 64";
"UCHAR_BIDI_CLASS = 0x1000";
"UCHAR_INT_START = UCHAR_BIDI_CLASS";
"UCHAR_BLOCK = 0x1001";
"UCHAR_CANONICAL_COMBINING_CLASS = 0x1002";
"UCHAR_DECOMPOSITION_TYPE = 0x1003";
"UCHAR_EAST_ASIAN_WIDTH = 0x1004";
"UCHAR_GENERAL_CATEGORY = 0x1005";
"UCHAR_JOINING_GROUP = 0x1006";
"UCHAR_JOINING_TYPE = 0x1007";
"UCHAR_LINE_BREAK = 0x1008";
"UCHAR_NUMERIC_TYPE = 0x1009";
"UCHAR_SCRIPT = 0x100A";
"UCHAR_HANGUL_SYLLABLE_TYPE = 0x100B";
"UCHAR_NFD_QUICK_CHECK = 0x100C";
"UCHAR_NFKD_QUICK_CHECK = 0x100D";
"UCHAR_NFC_QUICK_CHECK = 0x100E";
"UCHAR_NFKC_QUICK_CHECK = 0x100F";
"UCHAR_LEAD_CANONICAL_COMBINING_CLASS = 0x1010";
"UCHAR_TRAIL_CANONICAL_COMBINING_CLASS = 0x1011";
"UCHAR_GRAPHEME_CLUSTER_BREAK = 0x1012";
"UCHAR_SENTENCE_BREAK = 0x1013";
"UCHAR_WORD_BREAK = 0x1014";
"UCHAR_BIDI_PAIRED_BRACKET_TYPE = 0x1015";
"UCHAR_INDIC_POSITIONAL_CATEGORY = 0x1016";
"UCHAR_INDIC_SYLLABIC_CATEGORY = 0x1017";
"UCHAR_VERTICAL_ORIENTATION = 0x1018";
"UCHAR_GENERAL_CATEGORY_MASK = 0x2000";
"UCHAR_MASK_START = UCHAR_GENERAL_CATEGORY_MASK";
"UCHAR_NUMERIC_VALUE = 0x3000";
"UCHAR_DOUBLE_START = UCHAR_NUMERIC_VALUE";
"UCHAR_AGE = 0x4000";
"UCHAR_STRING_START = UCHAR_AGE";
"UCHAR_BIDI_MIRRORING_GLYPH = 0x4001";
"UCHAR_CASE_FOLDING = 0x4002";
"UCHAR_LOWERCASE_MAPPING = 0x4004";
"UCHAR_NAME = 0x4005";
"UCHAR_SIMPLE_CASE_FOLDING = 0x4006";
"UCHAR_SIMPLE_LOWERCASE_MAPPING = 0x4007";
"UCHAR_SIMPLE_TITLECASE_MAPPING = 0x4008";
"UCHAR_SIMPLE_UPPERCASE_MAPPING = 0x4009";
"UCHAR_TITLECASE_MAPPING = 0x400A";
"UCHAR_UPPERCASE_MAPPING = 0x400C";
"UCHAR_BIDI_PAIRED_BRACKET = 0x400D";
"UCHAR_SCRIPT_EXTENSIONS = 0x7000";
"UCHAR_OTHER_PROPERTY_START = UCHAR_SCRIPT_EXTENSIONS";
"UCHAR_INVALID_CODE = -1";
"U_UNASSIGNED = 0";
"U_GENERAL_OTHER_TYPES = 0";
"U_UPPERCASE_LETTER = 1";
"U_LOWERCASE_LETTER = 2";
"U_TITLECASE_LETTER = 3";
"U_MODIFIER_LETTER = 4";
"U_OTHER_LETTER = 5";
"U_NON_SPACING_MARK = 6";
"U_ENCLOSING_MARK = 7";
"U_COMBINING_SPACING_MARK = 8";
"U_DECIMAL_DIGIT_NUMBER = 9";
"U_LETTER_NUMBER = 10";
"U_OTHER_NUMBER = 11";
"U_SPACE_SEPARATOR = 12";
"U_LINE_SEPARATOR = 13";
"U_PARAGRAPH_SEPARATOR = 14";
"U_CONTROL_CHAR = 15";
"U_FORMAT_CHAR = 16";
"U_PRIVATE_USE_CHAR = 17";
"U_SURROGATE = 18";
"U_DASH_PUNCTUATION = 19";
"U_START_PUNCTUATION = 20";
"U_END_PUNCTUATION = 21";
"U_CONNECTOR_PUNCTUATION = 22";
"U_OTHER_PUNCTUATION = 23";
"U_MATH_SYMBOL = 24";
"U_CURRENCY_SYMBOL = 25";
"U_MODIFIER_SYMBOL = 26";
"U_OTHER_SYMBOL = 27";
"U_INITIAL_PUNCTUATION = 28";
"U_FINAL_PUNCTUATION = 29";
"U_CHAR_CATEGORY_COUNT = 30";
"U_GC_CN_MASK = U_MASK(U_GENERAL_OTHER_TYPES)";
"U_GC_LU_MASK = U_MASK(U_UPPERCASE_LETTER)";
"U_GC_LL_MASK = U_MASK(U_LOWERCASE_LETTER)";
"U_GC_LT_MASK = U_MASK(U_TITLECASE_LETTER)";
"U_GC_LM_MASK = U_MASK(U_MODIFIER_LETTER)";
"U_GC_LO_MASK = U_MASK(U_OTHER_LETTER)";
"U_GC_MN_MASK = U_MASK(U_NON_SPACING_MARK)";
"U_GC_ME_MASK = U_MASK(U_ENCLOSING_MARK)";
"U_GC_MC_MASK = U_MASK(U_COMBINING_SPACING_MARK)";
"U_GC_ND_MASK = U_MASK(U_DECIMAL_DIGIT_NUMBER)";
"U_GC_NL_MASK = U_MASK(U_LETTER_NUMBER)";
"U_GC_NO_MASK = U_MASK(U_OTHER_NUMBER)";
"U_GC_ZS_MASK = U_MASK(U_SPACE_SEPARATOR)";
"U_GC_ZL_MASK = U_MASK(U_LINE_SEPARATOR)";
"U_GC_ZP_MASK = U_MASK(U_PARAGRAPH_SEPARATOR)";
"U_GC_CC_MASK = U_MASK(U_CONTROL_CHAR)";
"U_GC_CF_MASK = U_MASK(U_FORMAT_CHAR)";
"U_GC_CO_MASK = U_MASK(U_PRIVATE_USE_CHAR)";
"U_GC_CS_MASK = U_MASK(U_SURROGATE)";
"U_GC_PD_MASK = U_MASK(U_DASH_PUNCTUATION)";
"U_GC_PS_MASK = U_MASK(U_START_PUNCTUATION)";
"U_GC_PE_MASK = U_MASK(U_END_PUNCTUATION)";
"U_GC_PC_MASK = U_MASK(U_CONNECTOR_PUNCTUATION)";
"U_GC_PO_MASK = U_MASK(U_OTHER_PUNCTUATION)";
"U_GC_SM_MASK = U_MASK(U_MATH_SYMBOL)";
"U_GC_SC_MASK = U_MASK(U_CURRENCY_SYMBOL)";
"U_GC_SK_MASK = U_MASK(U_MODIFIER_SYMBOL)";
"U_GC_SO_MASK = U_MASK(U_OTHER_SYMBOL)";
"U_GC_PI_MASK = U_MASK(U_INITIAL_PUNCTUATION)";
"U_GC_PF_MASK = U_MASK(U_FINAL_PUNCTUATION)";
"U_GC_L_MASK = (U_GC_LU_MASK|U_GC_LL_MASK|U_GC_LT_MASK|U_GC_LM_MASK|U_GC_LO_MASK)";
"U_GC_LC_MASK = (U_GC_LU_MASK|U_GC_LL_MASK|U_GC_LT_MASK)";
"U_GC_M_MASK = (U_GC_MN_MASK|U_GC_ME_MASK|U_GC_MC_MASK)";
"U_GC_N_MASK = (U_GC_ND_MASK|U_GC_NL_MASK|U_GC_NO_MASK)";
"U_GC_Z_MASK = (U_GC_ZS_MASK|U_GC_ZL_MASK|U_GC_ZP_MASK)";
"U_GC_C_MASK = (U_GC_CN_MASK|U_GC_CC_MASK|U_GC_CF_MASK|U_GC_CO_MASK|U_GC_CS_MASK)";
"U_GC_P_MASK = (U_GC_PD_MASK|U_GC_PS_MASK|U_GC_PE_MASK|U_GC_PC_MASK|U_GC_PO_MASK|U_GC_PI_MASK|U_GC_PF_MASK)";
"U_GC_S_MASK = (U_GC_SM_MASK|U_GC_SC_MASK|U_GC_SK_MASK|U_GC_SO_MASK)";
"U_LEFT_TO_RIGHT = 0";
"U_RIGHT_TO_LEFT = 1";
"U_EUROPEAN_NUMBER = 2";
"U_EUROPEAN_NUMBER_SEPARATOR = 3";
"U_EUROPEAN_NUMBER_TERMINATOR = 4";
"U_ARABIC_NUMBER = 5";
"U_COMMON_NUMBER_SEPARATOR = 6";
"U_BLOCK_SEPARATOR = 7";
"U_SEGMENT_SEPARATOR = 8";
"U_WHITE_SPACE_NEUTRAL = 9";
"U_OTHER_NEUTRAL = 10";
"U_LEFT_TO_RIGHT_EMBEDDING = 11";
"U_LEFT_TO_RIGHT_OVERRIDE = 12";
"U_RIGHT_TO_LEFT_ARABIC = 13";
"U_RIGHT_TO_LEFT_EMBEDDING = 14";
"U_RIGHT_TO_LEFT_OVERRIDE = 15";
"U_POP_DIRECTIONAL_FORMAT = 16";
"U_DIR_NON_SPACING_MARK = 17";
"U_BOUNDARY_NEUTRAL = 18";
"U_FIRST_STRONG_ISOLATE = 19";
"U_LEFT_TO_RIGHT_ISOLATE = 20";
"U_RIGHT_TO_LEFT_ISOLATE = 21";
"U_POP_DIRECTIONAL_ISOLATE = 22";
"U_BPT_NONE = 0";
"U_BPT_OPEN = 1";
"U_BPT_CLOSE = 2";
"UBLOCK_NO_BLOCK = 0  # [none]";
"UBLOCK_BASIC_LATIN = 1  # [0000]";
"UBLOCK_LATIN_1_SUPPLEMENT = 2  # [0080]";
"UBLOCK_LATIN_EXTENDED_A = 3  # [0100]";
"UBLOCK_LATIN_EXTENDED_B = 4  # [0180]";
"UBLOCK_IPA_EXTENSIONS = 5  # [0250]";
"UBLOCK_SPACING_MODIFIER_LETTERS = 6  # [02B0]";
"UBLOCK_COMBINING_DIACRITICAL_MARKS = 7  # [0300]";
"UBLOCK_GREEK = 8  # [0370]";
"UBLOCK_CYRILLIC = 9  # [0400]";
"UBLOCK_ARMENIAN = 10  # [0530]";
"UBLOCK_HEBREW = 11  # [0590]";
"UBLOCK_ARABIC = 12  # [0600]";
"UBLOCK_SYRIAC = 13  # [0700]";
"UBLOCK_THAANA = 14  # [0780]";
"UBLOCK_DEVANAGARI = 15  # [0900]";
"UBLOCK_BENGALI = 16  # [0980]";
"UBLOCK_GURMUKHI = 17  # [0A00]";
"UBLOCK_GUJARATI = 18  # [0A80]";
"UBLOCK_ORIYA = 19  # [0B00]";
"UBLOCK_TAMIL = 20  # [0B80]";
"UBLOCK_TELUGU = 21  # [0C00]";
"UBLOCK_KANNADA = 22  # [0C80]";
"UBLOCK_MALAYALAM = 23  # [0D00]";
"UBLOCK_SINHALA = 24  # [0D80]";
"UBLOCK_THAI = 25  # [0E00]";
"UBLOCK_LAO = 26  # [0E80]";
"UBLOCK_TIBETAN = 27  # [0F00]";
"UBLOCK_MYANMAR = 28  # [1000]";
"UBLOCK_GEORGIAN = 29  # [10A0]";
"UBLOCK_HANGUL_JAMO = 30  # [1100]";
"UBLOCK_ETHIOPIC = 31  # [1200]";
"UBLOCK_CHEROKEE = 32  # [13A0]";
"UBLOCK_UNIFIED_CANADIAN_ABORIGINAL_SYLLABICS = 33  # [1400]";
"UBLOCK_OGHAM = 34  # [1680]";
"UBLOCK_RUNIC = 35  # [16A0]";
"UBLOCK_KHMER = 36  # [1780]";
"UBLOCK_MONGOLIAN = 37  # [1800]";
"UBLOCK_LATIN_EXTENDED_ADDITIONAL = 38  # [1E00]";
"UBLOCK_GREEK_EXTENDED = 39  # [1F00]";
"UBLOCK_GENERAL_PUNCTUATION = 40  # [2000]";
"UBLOCK_SUPERSCRIPTS_AND_SUBSCRIPTS = 41  # [2070]";
"UBLOCK_CURRENCY_SYMBOLS = 42  # [20A0]";
"UBLOCK_COMBINING_MARKS_FOR_SYMBOLS = 43  # [20D0]";
"UBLOCK_LETTERLIKE_SYMBOLS = 44  # [2100]";
"UBLOCK_NUMBER_FORMS = 45  # [2150]";
"UBLOCK_ARROWS = 46  # [2190]";
"UBLOCK_MATHEMATICAL_OPERATORS = 47  # [2200]";
"UBLOCK_MISCELLANEOUS_TECHNICAL = 48  # [2300]";
"UBLOCK_CONTROL_PICTURES = 49  # [2400]";
"UBLOCK_OPTICAL_CHARACTER_RECOGNITION = 50  # [2440]";
"UBLOCK_ENCLOSED_ALPHANUMERICS = 51  # [2460]";
"UBLOCK_BOX_DRAWING = 52  # [2500]";
"UBLOCK_BLOCK_ELEMENTS = 53  # [2580]";
"UBLOCK_GEOMETRIC_SHAPES = 54  # [25A0]";
"UBLOCK_MISCELLANEOUS_SYMBOLS = 55  # [2600]";
"UBLOCK_DINGBATS = 56  # [2700]";
"UBLOCK_BRAILLE_PATTERNS = 57  # [2800]";
"UBLOCK_CJK_RADICALS_SUPPLEMENT = 58  # [2E80]";
"UBLOCK_KANGXI_RADICALS = 59  # [2F00]";
"UBLOCK_IDEOGRAPHIC_DESCRIPTION_CHARACTERS = 60  # [2FF0]";
"UBLOCK_CJK_SYMBOLS_AND_PUNCTUATION = 61  # [3000]";
"UBLOCK_HIRAGANA = 62  # [3040]";
"UBLOCK_KATAKANA = 63  # [30A0]";
"UBLOCK_BOPOMOFO = 64  # [3100]";
"UBLOCK_HANGUL_COMPATIBILITY_JAMO = 65  # [3130]";
"UBLOCK_KANBUN = 66  # [3190]";
"UBLOCK_BOPOMOFO_EXTENDED = 67  # [31A0]";
"UBLOCK_ENCLOSED_CJK_LETTERS_AND_MONTHS = 68  # [3200]";
"UBLOCK_CJK_COMPATIBILITY = 69  # [3300]";
"UBLOCK_CJK_UNIFIED_IDEOGRAPHS_EXTENSION_A = 70  # [3400]";
"UBLOCK_CJK_UNIFIED_IDEOGRAPHS = 71  # [4E00]";
"UBLOCK_YI_SYLLABLES = 72  # [A000]";
"UBLOCK_YI_RADICALS = 73  # [A490]";
"UBLOCK_HANGUL_SYLLABLES = 74  # [AC00]";
"UBLOCK_HIGH_SURROGATES = 75  # [D800]";
"UBLOCK_HIGH_PRIVATE_USE_SURROGATES = 76  # [DB80]";
"UBLOCK_LOW_SURROGATES = 77  # [DC00]";
"UBLOCK_PRIVATE_USE_AREA = 78  # [E000]";
"UBLOCK_PRIVATE_USE = UBLOCK_PRIVATE_USE_AREA";
"UBLOCK_CJK_COMPATIBILITY_IDEOGRAPHS = 79  # [F900]";
"UBLOCK_ALPHABETIC_PRESENTATION_FORMS = 80  # [FB00]";
"UBLOCK_ARABIC_PRESENTATION_FORMS_A = 81  # [FB50]";
"UBLOCK_COMBINING_HALF_MARKS = 82  # [FE20]";
"UBLOCK_CJK_COMPATIBILITY_FORMS = 83  # [FE30]";
"UBLOCK_SMALL_FORM_VARIANTS = 84  # [FE50]";
"UBLOCK_ARABIC_PRESENTATION_FORMS_B = 85  # [FE70]";
"UBLOCK_SPECIALS = 86  # [FFF0]";
"UBLOCK_HALFWIDTH_AND_FULLWIDTH_FORMS = 87  # [FF00]";
"UBLOCK_OLD_ITALIC = 88  # [10300]";
"UBLOCK_GOTHIC = 89  # [10330]";
"UBLOCK_DESERET = 90  # [10400]";
"UBLOCK_BYZANTINE_MUSICAL_SYMBOLS = 91  # [1D000]";
"UBLOCK_MUSICAL_SYMBOLS = 92  # [1D100]";
"UBLOCK_MATHEMATICAL_ALPHANUMERIC_SYMBOLS = 93  # [1D400]";
"UBLOCK_CJK_UNIFIED_IDEOGRAPHS_EXTENSION_B = 94  # [20000]";
"UBLOCK_CJK_COMPATIBILITY_IDEOGRAPHS_SUPPLEMENT = 95  # [2F800]";
"UBLOCK_TAGS = 96  # [E0000]";
"UBLOCK_CYRILLIC_SUPPLEMENT = 97  # [0500]";
"UBLOCK_CYRILLIC_SUPPLEMENTARY = UBLOCK_CYRILLIC_SUPPLEMENT";
"UBLOCK_TAGALOG = 98  # [1700]";
"UBLOCK_HANUNOO = 99  # [1720]";
"UBLOCK_BUHID = 100  # [1740]";
"UBLOCK_TAGBANWA = 101  # [1760]";
"UBLOCK_MISCELLANEOUS_MATHEMATICAL_SYMBOLS_A = 102  # [27C0]";
"UBLOCK_SUPPLEMENTAL_ARROWS_A = 103  # [27F0]";
"UBLOCK_SUPPLEMENTAL_ARROWS_B = 104  # [2900]";
"UBLOCK_MISCELLANEOUS_MATHEMATICAL_SYMBOLS_B = 105  # [2980]";
"UBLOCK_SUPPLEMENTAL_MATHEMATICAL_OPERATORS = 106  # [2A00]";
"UBLOCK_KATAKANA_PHONETIC_EXTENSIONS = 107  # [31F0]";
"UBLOCK_VARIATION_SELECTORS = 108  # [FE00]";
"UBLOCK_SUPPLEMENTARY_PRIVATE_USE_AREA_A = 109  # [F0000]";
"UBLOCK_SUPPLEMENTARY_PRIVATE_USE_AREA_B = 110  # [100000]";
"UBLOCK_LIMBU = 111  # [1900]";
"UBLOCK_TAI_LE = 112  # [1950]";
"UBLOCK_KHMER_SYMBOLS = 113  # [19E0]";
"UBLOCK_PHONETIC_EXTENSIONS = 114  # [1D00]";
"UBLOCK_MISCELLANEOUS_SYMBOLS_AND_ARROWS = 115  # [2B00]";
"UBLOCK_YIJING_HEXAGRAM_SYMBOLS = 116  # [4DC0]";
"UBLOCK_LINEAR_B_SYLLABARY = 117  # [10000]";
"UBLOCK_LINEAR_B_IDEOGRAMS = 118  # [10080]";
"UBLOCK_AEGEAN_NUMBERS = 119  # [10100]";
"UBLOCK_UGARITIC = 120  # [10380]";
"UBLOCK_SHAVIAN = 121  # [10450]";
"UBLOCK_OSMANYA = 122  # [10480]";
"UBLOCK_CYPRIOT_SYLLABARY = 123  # [10800]";
"UBLOCK_TAI_XUAN_JING_SYMBOLS = 124  # [1D300]";
"UBLOCK_VARIATION_SELECTORS_SUPPLEMENT = 125  # [E0100]";
"UBLOCK_ANCIENT_GREEK_MUSICAL_NOTATION = 126  # [1D200]";
"UBLOCK_ANCIENT_GREEK_NUMBERS = 127  # [10140]";
"UBLOCK_ARABIC_SUPPLEMENT = 128  # [0750]";
"UBLOCK_BUGINESE = 129  # [1A00]";
"UBLOCK_CJK_STROKES = 130  # [31C0]";
"UBLOCK_COMBINING_DIACRITICAL_MARKS_SUPPLEMENT = 131  # [1DC0]";
"UBLOCK_COPTIC = 132  # [2C80]";
"UBLOCK_ETHIOPIC_EXTENDED = 133  # [2D80]";
"UBLOCK_ETHIOPIC_SUPPLEMENT = 134  # [1380]";
"UBLOCK_GEORGIAN_SUPPLEMENT = 135  # [2D00]";
"UBLOCK_GLAGOLITIC = 136  # [2C00]";
"UBLOCK_KHAROSHTHI = 137  # [10A00]";
"UBLOCK_MODIFIER_TONE_LETTERS = 138  # [A700]";
"UBLOCK_NEW_TAI_LUE = 139  # [1980]";
"UBLOCK_OLD_PERSIAN = 140  # [103A0]";
"UBLOCK_PHONETIC_EXTENSIONS_SUPPLEMENT = 141  # [1D80]";
"UBLOCK_SUPPLEMENTAL_PUNCTUATION = 142  # [2E00]";
"UBLOCK_SYLOTI_NAGRI = 143  # [A800]";
"UBLOCK_TIFINAGH = 144  # [2D30]";
"UBLOCK_VERTICAL_FORMS = 145  # [FE10]";
"UBLOCK_NKO = 146  # [07C0]";
"UBLOCK_BALINESE = 147  # [1B00]";
"UBLOCK_LATIN_EXTENDED_C = 148  # [2C60]";
"UBLOCK_LATIN_EXTENDED_D = 149  # [A720]";
"UBLOCK_PHAGS_PA = 150  # [A840]";
"UBLOCK_PHOENICIAN = 151  # [10900]";
"UBLOCK_CUNEIFORM = 152  # [12000]";
"UBLOCK_CUNEIFORM_NUMBERS_AND_PUNCTUATION = 153  # [12400]";
"UBLOCK_COUNTING_ROD_NUMERALS = 154  # [1D360]";
"UBLOCK_SUNDANESE = 155  # [1B80]";
"UBLOCK_LEPCHA = 156  # [1C00]";
"UBLOCK_OL_CHIKI = 157  # [1C50]";
"UBLOCK_CYRILLIC_EXTENDED_A = 158  # [2DE0]";
"UBLOCK_VAI = 159  # [A500]";
"UBLOCK_CYRILLIC_EXTENDED_B = 160  # [A640]";
"UBLOCK_SAURASHTRA = 161  # [A880]";
"UBLOCK_KAYAH_LI = 162  # [A900]";
"UBLOCK_REJANG = 163  # [A930]";
"UBLOCK_CHAM = 164  # [AA00]";
"UBLOCK_ANCIENT_SYMBOLS = 165  # [10190]";
"UBLOCK_PHAISTOS_DISC = 166  # [101D0]";
"UBLOCK_LYCIAN = 167  # [10280]";
"UBLOCK_CARIAN = 168  # [102A0]";
"UBLOCK_LYDIAN = 169  # [10920]";
"UBLOCK_MAHJONG_TILES = 170  # [1F000]";
"UBLOCK_DOMINO_TILES = 171  # [1F030]";
"UBLOCK_SAMARITAN = 172  # [0800]";
"UBLOCK_UNIFIED_CANADIAN_ABORIGINAL_SYLLABICS_EXTENDED = 173  # [18B0]";
"UBLOCK_TAI_THAM = 174  # [1A20]";
"UBLOCK_VEDIC_EXTENSIONS = 175  # [1CD0]";
"UBLOCK_LISU = 176  # [A4D0]";
"UBLOCK_BAMUM = 177  # [A6A0]";
"UBLOCK_COMMON_INDIC_NUMBER_FORMS = 178  # [A830]";
"UBLOCK_DEVANAGARI_EXTENDED = 179  # [A8E0]";
"UBLOCK_HANGUL_JAMO_EXTENDED_A = 180  # [A960]";
"UBLOCK_JAVANESE = 181  # [A980]";
"UBLOCK_MYANMAR_EXTENDED_A = 182  # [AA60]";
"UBLOCK_TAI_VIET = 183  # [AA80]";
"UBLOCK_MEETEI_MAYEK = 184  # [ABC0]";
"UBLOCK_HANGUL_JAMO_EXTENDED_B = 185  # [D7B0]";
"UBLOCK_IMPERIAL_ARAMAIC = 186  # [10840]";
"UBLOCK_OLD_SOUTH_ARABIAN = 187  # [10A60]";
"UBLOCK_AVESTAN = 188  # [10B00]";
"UBLOCK_INSCRIPTIONAL_PARTHIAN = 189  # [10B40]";
"UBLOCK_INSCRIPTIONAL_PAHLAVI = 190  # [10B60]";
"UBLOCK_OLD_TURKIC = 191  # [10C00]";
"UBLOCK_RUMI_NUMERAL_SYMBOLS = 192  # [10E60]";
"UBLOCK_KAITHI = 193  # [11080]";
"UBLOCK_EGYPTIAN_HIEROGLYPHS = 194  # [13000]";
"UBLOCK_ENCLOSED_ALPHANUMERIC_SUPPLEMENT = 195  # [1F100]";
"UBLOCK_ENCLOSED_IDEOGRAPHIC_SUPPLEMENT = 196  # [1F200]";
"UBLOCK_CJK_UNIFIED_IDEOGRAPHS_EXTENSION_C = 197  # [2A700]";
"UBLOCK_MANDAIC = 198  # [0840]";
"UBLOCK_BATAK = 199  # [1BC0]";
"UBLOCK_ETHIOPIC_EXTENDED_A = 200  # [AB00]";
"UBLOCK_BRAHMI = 201  # [11000]";
"UBLOCK_BAMUM_SUPPLEMENT = 202  # [16800]";
"UBLOCK_KANA_SUPPLEMENT = 203  # [1B000]";
"UBLOCK_PLAYING_CARDS = 204  # [1F0A0]";
"UBLOCK_MISCELLANEOUS_SYMBOLS_AND_PICTOGRAPHS = 205  # [1F300]";
"UBLOCK_EMOTICONS = 206  # [1F600]";
"UBLOCK_TRANSPORT_AND_MAP_SYMBOLS = 207  # [1F680]";
"UBLOCK_ALCHEMICAL_SYMBOLS = 208  # [1F700]";
"UBLOCK_CJK_UNIFIED_IDEOGRAPHS_EXTENSION_D = 209  # [2B740]";
"UBLOCK_ARABIC_EXTENDED_A = 210  # [08A0]";
"UBLOCK_ARABIC_MATHEMATICAL_ALPHABETIC_SYMBOLS = 211  # [1EE00]";
"UBLOCK_CHAKMA = 212  # [11100]";
"UBLOCK_MEETEI_MAYEK_EXTENSIONS = 213  # [AAE0]";
"UBLOCK_MEROITIC_CURSIVE = 214  # [109A0]";
"UBLOCK_MEROITIC_HIEROGLYPHS = 215  # [10980]";
"UBLOCK_MIAO = 216  # [16F00]";
"UBLOCK_SHARADA = 217  # [11180]";
"UBLOCK_SORA_SOMPENG = 218  # [110D0]";
"UBLOCK_SUNDANESE_SUPPLEMENT = 219  # [1CC0]";
"UBLOCK_TAKRI = 220  # [11680]";
"UBLOCK_BASSA_VAH = 221  # [16AD0]";
"UBLOCK_CAUCASIAN_ALBANIAN = 222  # [10530]";
"UBLOCK_COPTIC_EPACT_NUMBERS = 223  # [102E0]";
"UBLOCK_COMBINING_DIACRITICAL_MARKS_EXTENDED = 224  # [1AB0]";
"UBLOCK_DUPLOYAN = 225  # [1BC00]";
"UBLOCK_ELBASAN = 226  # [10500]";
"UBLOCK_GEOMETRIC_SHAPES_EXTENDED = 227  # [1F780]";
"UBLOCK_GRANTHA = 228  # [11300]";
"UBLOCK_KHOJKI = 229  # [11200]";
"UBLOCK_KHUDAWADI = 230  # [112B0]";
"UBLOCK_LATIN_EXTENDED_E = 231  # [AB30]";
"UBLOCK_LINEAR_A = 232  # [10600]";
"UBLOCK_MAHAJANI = 233  # [11150]";
"UBLOCK_MANICHAEAN = 234  # [10AC0]";
"UBLOCK_MENDE_KIKAKUI = 235  # [1E800]";
"UBLOCK_MODI = 236  # [11600]";
"UBLOCK_MRO = 237  # [16A40]";
"UBLOCK_MYANMAR_EXTENDED_B = 238  # [A9E0]";
"UBLOCK_NABATAEAN = 239  # [10880]";
"UBLOCK_OLD_NORTH_ARABIAN = 240  # [10A80]";
"UBLOCK_OLD_PERMIC = 241  # [10350]";
"UBLOCK_ORNAMENTAL_DINGBATS = 242  # [1F650]";
"UBLOCK_PAHAWH_HMONG = 243  # [16B00]";
"UBLOCK_PALMYRENE = 244  # [10860]";
"UBLOCK_PAU_CIN_HAU = 245  # [11AC0]";
"UBLOCK_PSALTER_PAHLAVI = 246  # [10B80]";
"UBLOCK_SHORTHAND_FORMAT_CONTROLS = 247  # [1BCA0]";
"UBLOCK_SIDDHAM = 248  # [11580]";
"UBLOCK_SINHALA_ARCHAIC_NUMBERS = 249  # [111E0]";
"UBLOCK_SUPPLEMENTAL_ARROWS_C = 250  # [1F800]";
"UBLOCK_TIRHUTA = 251  # [11480]";
"UBLOCK_WARANG_CITI = 252  # [118A0]";
"UBLOCK_AHOM = 253  # [11700]";
"UBLOCK_ANATOLIAN_HIEROGLYPHS = 254  # [14400]";
"UBLOCK_CHEROKEE_SUPPLEMENT = 255  # [AB70]";
"UBLOCK_CJK_UNIFIED_IDEOGRAPHS_EXTENSION_E = 256  # [2B820]";
"UBLOCK_EARLY_DYNASTIC_CUNEIFORM = 257  # [12480]";
"UBLOCK_HATRAN = 258  # [108E0]";
"UBLOCK_MULTANI = 259  # [11280]";
"UBLOCK_OLD_HUNGARIAN = 260  # [10C80]";
"UBLOCK_SUPPLEMENTAL_SYMBOLS_AND_PICTOGRAPHS = 261  # [1F900]";
"UBLOCK_SUTTON_SIGNWRITING = 262  # [1D800]";
"UBLOCK_ADLAM = 263  # [1E900]";
"UBLOCK_BHAIKSUKI = 264  # [11C00]";
"UBLOCK_CYRILLIC_EXTENDED_C = 265  # [1C80]";
"UBLOCK_GLAGOLITIC_SUPPLEMENT = 266  # [1E000]";
"UBLOCK_IDEOGRAPHIC_SYMBOLS_AND_PUNCTUATION = 267  # [16FE0]";
"UBLOCK_MARCHEN = 268  # [11C70]";
"UBLOCK_MONGOLIAN_SUPPLEMENT = 269  # [11660]";
"UBLOCK_NEWA = 270  # [11400]";
"UBLOCK_OSAGE = 271  # [104B0]";
"UBLOCK_TANGUT = 272  # [17000]";
"UBLOCK_TANGUT_COMPONENTS = 273  # [18800]";
"UBLOCK_CJK_UNIFIED_IDEOGRAPHS_EXTENSION_F = 274  # [2CEB0]";
"UBLOCK_KANA_EXTENDED_A = 275  # [1B100]";
"UBLOCK_MASARAM_GONDI = 276  # [11D00]";
"UBLOCK_NUSHU = 277  # [1B170]";
"UBLOCK_SOYOMBO = 278  # [11A50]";
"UBLOCK_SYRIAC_SUPPLEMENT = 279  # [0860]";
"UBLOCK_ZANABAZAR_SQUARE = 280  # [11A00]";
"UBLOCK_CHESS_SYMBOLS = 281  # [1FA00]";
"UBLOCK_DOGRA = 282  # [11800]";
"UBLOCK_GEORGIAN_EXTENDED = 283  # [1C90]";
"UBLOCK_GUNJALA_GONDI = 284  # [11D60]";
"UBLOCK_HANIFI_ROHINGYA = 285  # [10D00]";
"UBLOCK_INDIC_SIYAQ_NUMBERS = 286  # [1EC70]";
"UBLOCK_MAKASAR = 287  # [11EE0]";
"UBLOCK_MAYAN_NUMERALS = 288  # [1D2E0]";
"UBLOCK_MEDEFAIDRIN = 289  # [16E40]";
"UBLOCK_OLD_SOGDIAN = 290  # [10F00]";
"UBLOCK_SOGDIAN = 291  # [10F30]";
"UBLOCK_EGYPTIAN_HIEROGLYPH_FORMAT_CONTROLS = 292  # [13430]";
"UBLOCK_ELYMAIC = 293  # [10FE0]";
"UBLOCK_NANDINAGARI = 294  # [119A0]";
"UBLOCK_NYIAKENG_PUACHUE_HMONG = 295  # [1E100]";
"UBLOCK_OTTOMAN_SIYAQ_NUMBERS = 296  # [1ED00]";
"UBLOCK_SMALL_KANA_EXTENSION = 297  # [1B130]";
"UBLOCK_SYMBOLS_AND_PICTOGRAPHS_EXTENDED_A = 298  # [1FA70]";
"UBLOCK_TAMIL_SUPPLEMENT = 299  # [11FC0]";
"UBLOCK_WANCHO = 300  # [1E2C0]";
"UBLOCK_CHORASMIAN = 301  # [10FB0]";
"UBLOCK_CJK_UNIFIED_IDEOGRAPHS_EXTENSION_G = 302  # [30000]";
"UBLOCK_DIVES_AKURU = 303  # [11900]";
"UBLOCK_KHITAN_SMALL_SCRIPT = 304  # [18B00]";
"UBLOCK_LISU_SUPPLEMENT = 305  # [11FB0]";
"UBLOCK_SYMBOLS_FOR_LEGACY_COMPUTING = 306  # [1FB00]";
"UBLOCK_TANGUT_SUPPLEMENT = 307  # [18D00]";
"UBLOCK_YEZIDI = 308  # [10E80]";
"UBLOCK_INVALID_CODE = -1";
"U_EA_NEUTRAL = 0  # [N]";
"U_EA_AMBIGUOUS = 1  # [A]";
"U_EA_HALFWIDTH = 2  # [H]";
"U_EA_FULLWIDTH = 3  # [F]";
"U_EA_NARROW = 4  # [Na]";
"U_EA_WIDE = 5  # [W]";
"U_UNICODE_CHAR_NAME = 0";
"U_EXTENDED_CHAR_NAME = U_UNICODE_CHAR_NAME+2";
"U_CHAR_NAME_ALIAS = 3";
"U_SHORT_PROPERTY_NAME = 0";
"U_LONG_PROPERTY_NAME = 1";
"U_DT_NONE = 0  # [none]";
"U_DT_CANONICAL = 1  # [can]";
"U_DT_COMPAT = 2  # [com]";
"U_DT_CIRCLE = 3  # [enc]";
"U_DT_FINAL = 4  # [fin]";
"U_DT_FONT = 5  # [font]";
"U_DT_FRACTION = 6  # [fra]";
"U_DT_INITIAL = 7  # [init]";
"U_DT_ISOLATED = 8  # [iso]";
"U_DT_MEDIAL = 9  # [med]";
"U_DT_NARROW = 10  # [nar]";
"U_DT_NOBREAK = 11  # [nb]";
"U_DT_SMALL = 12  # [sml]";
"U_DT_SQUARE = 13  # [sqr]";
"U_DT_SUB = 14  # [sub]";
"U_DT_SUPER = 15  # [sup]";
"U_DT_VERTICAL = 16  # [vert]";
"U_DT_WIDE = 17  # [wide]";
"U_JT_NON_JOINING = 0  # [U]";
"U_JT_JOIN_CAUSING = 1  # [C]";
"U_JT_DUAL_JOINING = 2  # [D]";
"U_JT_LEFT_JOINING = 3  # [L]";
"U_JT_RIGHT_JOINING = 4  # [R]";
"U_JT_TRANSPARENT = 5  # [T]";
"U_JG_NO_JOINING_GROUP = 0";
"U_JG_AIN = 1";
"U_JG_ALAPH = 2";
"U_JG_ALEF = 3";
"U_JG_BEH = 4";
"U_JG_BETH = 5";
"U_JG_DAL = 6";
"U_JG_DALATH_RISH = 7";
"U_JG_E = 8";
"U_JG_FEH = 9";
"U_JG_FINAL_SEMKATH = 10";
"U_JG_GAF = 11";
"U_JG_GAMAL = 12";
"U_JG_HAH = 13";
"U_JG_TEH_MARBUTA_GOAL = 14  # < @stable ICU 4.6 ";
"U_JG_HAMZA_ON_HEH_GOAL = U_JG_TEH_MARBUTA_GOAL";
"U_JG_HE = 15";
"U_JG_HEH = 16";
"U_JG_HEH_GOAL = 17";
"U_JG_HETH = 18";
"U_JG_KAF = 19";
"U_JG_KAPH = 20";
"U_JG_KNOTTED_HEH = 21";
"U_JG_LAM = 22";
"U_JG_LAMADH = 23";
"U_JG_MEEM = 24";
"U_JG_MIM = 25";
"U_JG_NOON = 26";
"U_JG_NUN = 27";
"U_JG_PE = 28";
"U_JG_QAF = 29";
"U_JG_QAPH = 30";
"U_JG_REH = 31";
"U_JG_REVERSED_PE = 32";
"U_JG_SAD = 33";
"U_JG_SADHE = 34";
"U_JG_SEEN = 35";
"U_JG_SEMKATH = 36";
"U_JG_SHIN = 37";
"U_JG_SWASH_KAF = 38";
"U_JG_SYRIAC_WAW = 39";
"U_JG_TAH = 40";
"U_JG_TAW = 41";
"U_JG_TEH_MARBUTA = 42";
"U_JG_TETH = 43";
"U_JG_WAW = 44";
"U_JG_YEH = 45";
"U_JG_YEH_BARREE = 46";
"U_JG_YEH_WITH_TAIL = 47";
"U_JG_YUDH = 48";
"U_JG_YUDH_HE = 49";
"U_JG_ZAIN = 50";
"U_JG_FE = 51  # < @stable ICU 2.6 ";
"U_JG_KHAPH = 52  # < @stable ICU 2.6 ";
"U_JG_ZHAIN = 53  # < @stable ICU 2.6 ";
"U_JG_BURUSHASKI_YEH_BARREE = 54  # < @stable ICU 4.0 ";
"U_JG_FARSI_YEH = 55  # < @stable ICU 4.4 ";
"U_JG_NYA = 56  # < @stable ICU 4.4 ";
"U_JG_ROHINGYA_YEH = 57  # < @stable ICU 49 ";
"U_JG_MANICHAEAN_ALEPH = 58  # < @stable ICU 54 ";
"U_JG_MANICHAEAN_AYIN = 59  # < @stable ICU 54 ";
"U_JG_MANICHAEAN_BETH = 60  # < @stable ICU 54 ";
"U_JG_MANICHAEAN_DALETH = 61  # < @stable ICU 54 ";
"U_JG_MANICHAEAN_DHAMEDH = 62  # < @stable ICU 54 ";
"U_JG_MANICHAEAN_FIVE = 63  # < @stable ICU 54 ";
"U_JG_MANICHAEAN_GIMEL = 64  # < @stable ICU 54 ";
"U_JG_MANICHAEAN_HETH = 65  # < @stable ICU 54 ";
"U_JG_MANICHAEAN_HUNDRED = 66  # < @stable ICU 54 ";
"U_JG_MANICHAEAN_KAPH = 67  # < @stable ICU 54 ";
"U_JG_MANICHAEAN_LAMEDH = 68  # < @stable ICU 54 ";
"U_JG_MANICHAEAN_MEM = 69  # < @stable ICU 54 ";
"U_JG_MANICHAEAN_NUN = 70  # < @stable ICU 54 ";
"U_JG_MANICHAEAN_ONE = 71  # < @stable ICU 54 ";
"U_JG_MANICHAEAN_PE = 72  # < @stable ICU 54 ";
"U_JG_MANICHAEAN_QOPH = 73  # < @stable ICU 54 ";
"U_JG_MANICHAEAN_RESH = 74  # < @stable ICU 54 ";
"U_JG_MANICHAEAN_SADHE = 75  # < @stable ICU 54 ";
"U_JG_MANICHAEAN_SAMEKH = 76  # < @stable ICU 54 ";
"U_JG_MANICHAEAN_TAW = 77  # < @stable ICU 54 ";
"U_JG_MANICHAEAN_TEN = 78  # < @stable ICU 54 ";
"U_JG_MANICHAEAN_TETH = 79  # < @stable ICU 54 ";
"U_JG_MANICHAEAN_THAMEDH = 80  # < @stable ICU 54 ";
"U_JG_MANICHAEAN_TWENTY = 81  # < @stable ICU 54 ";
"U_JG_MANICHAEAN_WAW = 82  # < @stable ICU 54 ";
"U_JG_MANICHAEAN_YODH = 83  # < @stable ICU 54 ";
"U_JG_MANICHAEAN_ZAYIN = 84  # < @stable ICU 54 ";
"U_JG_STRAIGHT_WAW = 85  # < @stable ICU 54 ";
"U_JG_AFRICAN_FEH = 86  # < @stable ICU 58 ";
"U_JG_AFRICAN_NOON = 87  # < @stable ICU 58 ";
"U_JG_AFRICAN_QAF = 88  # < @stable ICU 58 ";
"U_JG_MALAYALAM_BHA = 89  # < @stable ICU 60 ";
"U_JG_MALAYALAM_JA = 90  # < @stable ICU 60 ";
"U_JG_MALAYALAM_LLA = 91  # < @stable ICU 60 ";
"U_JG_MALAYALAM_LLLA = 92  # < @stable ICU 60 ";
"U_JG_MALAYALAM_NGA = 93  # < @stable ICU 60 ";
"U_JG_MALAYALAM_NNA = 94  # < @stable ICU 60 ";
"U_JG_MALAYALAM_NNNA = 95  # < @stable ICU 60 ";
"U_JG_MALAYALAM_NYA = 96  # < @stable ICU 60 ";
"U_JG_MALAYALAM_RA = 97  # < @stable ICU 60 ";
"U_JG_MALAYALAM_SSA = 98  # < @stable ICU 60 ";
"U_JG_MALAYALAM_TTA = 99  # < @stable ICU 60 ";
"U_JG_HANIFI_ROHINGYA_KINNA_YA = 100  # < @stable ICU 62 ";
"U_JG_HANIFI_ROHINGYA_PA = 101  # < @stable ICU 62 ";
"U_GCB_OTHER = 0  # [XX]";
"U_GCB_CONTROL = 1  # [CN]";
"U_GCB_CR = 2  # [CR]";
"U_GCB_EXTEND = 3  # [EX]";
"U_GCB_L = 4  # [L]";
"U_GCB_LF = 5  # [LF]";
"U_GCB_LV = 6  # [LV]";
"U_GCB_LVT = 7  # [LVT]";
"U_GCB_T = 8  # [T]";
"U_GCB_V = 9  # [V]";
"U_GCB_SPACING_MARK = 10  # [SM]";
"U_GCB_PREPEND = 11  # [PP]";
"U_GCB_REGIONAL_INDICATOR = 12  # [RI]";
"U_GCB_E_BASE = 13  # [EB]";
"U_GCB_E_BASE_GAZ = 14  # [EBG]";
"U_GCB_E_MODIFIER = 15  # [EM]";
"U_GCB_GLUE_AFTER_ZWJ = 16  # [GAZ]";
"U_GCB_ZWJ = 17  # [ZWJ]";
"U_WB_OTHER = 0  # [XX]";
"U_WB_ALETTER = 1  # [LE]";
"U_WB_FORMAT = 2  # [FO]";
"U_WB_KATAKANA = 3  # [KA]";
"U_WB_MIDLETTER = 4  # [ML]";
"U_WB_MIDNUM = 5  # [MN]";
"U_WB_NUMERIC = 6  # [NU]";
"U_WB_EXTENDNUMLET = 7  # [EX]";
"U_WB_CR = 8  # [CR]";
"U_WB_EXTEND = 9  # [Extend]";
"U_WB_LF = 10  # [LF]";
"U_WB_MIDNUMLET = 11  # [MB]";
"U_WB_NEWLINE = 12  # [NL]";
"U_WB_REGIONAL_INDICATOR = 13  # [RI]";
"U_WB_HEBREW_LETTER = 14  # [HL]";
"U_WB_SINGLE_QUOTE = 15  # [SQ]";
"U_WB_DOUBLE_QUOTE = 16  # [DQ]";
"U_WB_E_BASE = 17  # [EB]";
"U_WB_E_BASE_GAZ = 18  # [EBG]";
"U_WB_E_MODIFIER = 19  # [EM]";
"U_WB_GLUE_AFTER_ZWJ = 20  # [GAZ]";
"U_WB_ZWJ = 21  # [ZWJ]";
"U_WB_WSEGSPACE = 22  # [WSEGSPACE]";
"U_SB_OTHER = 0  # [XX]";
"U_SB_ATERM = 1  # [AT]";
"U_SB_CLOSE = 2  # [CL]";
"U_SB_FORMAT = 3  # [FO]";
"U_SB_LOWER = 4  # [LO]";
"U_SB_NUMERIC = 5  # [NU]";
"U_SB_OLETTER = 6  # [LE]";
"U_SB_SEP = 7  # [SE]";
"U_SB_SP = 8  # [SP]";
"U_SB_STERM = 9  # [ST]";
"U_SB_UPPER = 10  # [UP]";
"U_SB_CR = 11  # [CR]";
"U_SB_EXTEND = 12  # [EX]";
"U_SB_LF = 13  # [LF]";
"U_SB_SCONTINUE = 14  # [SC]";
"U_LB_UNKNOWN = 0  # [XX]";
"U_LB_AMBIGUOUS = 1  # [AI]";
"U_LB_ALPHABETIC = 2  # [AL]";
"U_LB_BREAK_BOTH = 3  # [B2]";
"U_LB_BREAK_AFTER = 4  # [BA]";
"U_LB_BREAK_BEFORE = 5  # [BB]";
"U_LB_MANDATORY_BREAK = 6  # [BK]";
"U_LB_CONTINGENT_BREAK = 7  # [CB]";
"U_LB_CLOSE_PUNCTUATION = 8  # [CL]";
"U_LB_COMBINING_MARK = 9  # [CM]";
"U_LB_CARRIAGE_RETURN = 10  # [CR]";
"U_LB_EXCLAMATION = 11  # [EX]";
"U_LB_GLUE = 12  # [GL]";
"U_LB_HYPHEN = 13  # [HY]";
"U_LB_IDEOGRAPHIC = 14  # [ID]";
"U_LB_INSEPARABLE = 15  # [IN]";
"U_LB_INSEPERABLE = U_LB_INSEPARABLE";
"U_LB_INFIX_NUMERIC = 16  # [IS]";
"U_LB_LINE_FEED = 17  # [LF]";
"U_LB_NONSTARTER = 18  # [NS]";
"U_LB_NUMERIC = 19  # [NU]";
"U_LB_OPEN_PUNCTUATION = 20  # [OP]";
"U_LB_POSTFIX_NUMERIC = 21  # [PO]";
"U_LB_PREFIX_NUMERIC = 22  # [PR]";
"U_LB_QUOTATION = 23  # [QU]";
"U_LB_COMPLEX_CONTEXT = 24  # [SA]";
"U_LB_SURROGATE = 25  # [SG]";
"U_LB_SPACE = 26  # [SP]";
"U_LB_BREAK_SYMBOLS = 27  # [SY]";
"U_LB_ZWSPACE = 28  # [ZW]";
"U_LB_NEXT_LINE = 29  # [NL]";
"U_LB_WORD_JOINER = 30  # [WJ]";
"U_LB_H2 = 31  # [H2]";
"U_LB_H3 = 32  # [H3]";
"U_LB_JL = 33  # [JL]";
"U_LB_JT = 34  # [JT]";
"U_LB_JV = 35  # [JV]";
"U_LB_CLOSE_PARENTHESIS = 36  # [CP]";
"U_LB_CONDITIONAL_JAPANESE_STARTER = 37  # [CJ]";
"U_LB_HEBREW_LETTER = 38  # [HL]";
"U_LB_REGIONAL_INDICATOR = 39  # [RI]";
"U_LB_E_BASE = 40  # [EB]";
"U_LB_E_MODIFIER = 41  # [EM]";
"U_LB_ZWJ = 42  # [ZWJ]";
"U_NT_NONE = 0  # [None]";
"U_NT_DECIMAL = 1  # [de]";
"U_NT_DIGIT = 2  # [di]";
"U_NT_NUMERIC = 3  # [nu]";
"U_HST_NOT_APPLICABLE = 0  # [NA]";
"U_HST_LEADING_JAMO = 1  # [L]";
"U_HST_VOWEL_JAMO = 2  # [V]";
"U_HST_TRAILING_JAMO = 3  # [T]";
"U_HST_LV_SYLLABLE = 4  # [LV]";
"U_HST_LVT_SYLLABLE = 5  # [LVT]";
"U_INPC_NA = 0";
"U_INPC_BOTTOM = 1";
"U_INPC_BOTTOM_AND_LEFT = 2";
"U_INPC_BOTTOM_AND_RIGHT = 3";
"U_INPC_LEFT = 4";
"U_INPC_LEFT_AND_RIGHT = 5";
"U_INPC_OVERSTRUCK = 6";
"U_INPC_RIGHT = 7";
"U_INPC_TOP = 8";
"U_INPC_TOP_AND_BOTTOM = 9";
"U_INPC_TOP_AND_BOTTOM_AND_RIGHT = 10";
"U_INPC_TOP_AND_LEFT = 11";
"U_INPC_TOP_AND_LEFT_AND_RIGHT = 12";
"U_INPC_TOP_AND_RIGHT = 13";
"U_INPC_VISUAL_ORDER_LEFT = 14";
"U_INPC_TOP_AND_BOTTOM_AND_LEFT = 15";
"U_INSC_OTHER = 0";
"U_INSC_AVAGRAHA = 1";
"U_INSC_BINDU = 2";
"U_INSC_BRAHMI_JOINING_NUMBER = 3";
"U_INSC_CANTILLATION_MARK = 4";
"U_INSC_CONSONANT = 5";
"U_INSC_CONSONANT_DEAD = 6";
"U_INSC_CONSONANT_FINAL = 7";
"U_INSC_CONSONANT_HEAD_LETTER = 8";
"U_INSC_CONSONANT_INITIAL_POSTFIXED = 9";
"U_INSC_CONSONANT_KILLER = 10";
"U_INSC_CONSONANT_MEDIAL = 11";
"U_INSC_CONSONANT_PLACEHOLDER = 12";
"U_INSC_CONSONANT_PRECEDING_REPHA = 13";
"U_INSC_CONSONANT_PREFIXED = 14";
"U_INSC_CONSONANT_SUBJOINED = 15";
"U_INSC_CONSONANT_SUCCEEDING_REPHA = 16";
"U_INSC_CONSONANT_WITH_STACKER = 17";
"U_INSC_GEMINATION_MARK = 18";
"U_INSC_INVISIBLE_STACKER = 19";
"U_INSC_JOINER = 20";
"U_INSC_MODIFYING_LETTER = 21";
"U_INSC_NON_JOINER = 22";
"U_INSC_NUKTA = 23";
"U_INSC_NUMBER = 24";
"U_INSC_NUMBER_JOINER = 25";
"U_INSC_PURE_KILLER = 26";
"U_INSC_REGISTER_SHIFTER = 27";
"U_INSC_SYLLABLE_MODIFIER = 28";
"U_INSC_TONE_LETTER = 29";
"U_INSC_TONE_MARK = 30";
"U_INSC_VIRAMA = 31";
"U_INSC_VISARGA = 32";
"U_INSC_VOWEL = 33";
"U_INSC_VOWEL_DEPENDENT = 34";
"U_INSC_VOWEL_INDEPENDENT = 35";
"U_VO_ROTATED = 0";
"U_VO_TRANSFORMED_ROTATED = 1";
"U_VO_TRANSFORMED_UPRIGHT = 2";
"U_VO_UPRIGHT = 3"].

(** uscript_h.py:1-211 *)
Definition uscript_h_lines : list string := [
"""""""/";
"uscript_h.py, based on uscript.h from ICU";
"";
"Generated by HeaderToPtyhon.py on August 26, 2021 at 11:27:13 AM HST";
"""""""";
"";
"USCRIPT_INVALID_CODE = -1";
"USCRIPT_COMMON = 0  #  Zyyy ";
"USCRIPT_INHERITED = 1  #  Zinh ";
"USCRIPT_ARABIC = 2  #  Arab ";
"USCRIPT_ARMENIAN = 3  #  Armn ";
"USCRIPT_BENGALI = 4  #  Beng ";
"USCRIPT_BOPOMOFO = 5  #  Bopo ";
"USCRIPT_CHEROKEE = 6  #  Cher ";
"USCRIPT_COPTIC = 7  #  Copt ";
"USCRIPT_CYRILLIC = 8  #  Cyrl ";
"USCRIPT_DESERET = 9  #  Dsrt ";
"USCRIPT_DEVANAGARI = 10  #  Deva ";
"USCRIPT_ETHIOPIC = 11  #  Ethi ";
"USCRIPT_GEORGIAN = 12  #  Geor ";
"USCRIPT_GOTHIC = 13  #  Goth ";
"USCRIPT_GREEK = 14  #  Grek ";
"USCRIPT_GUJARATI = 15  #  Gujr ";
"USCRIPT_GURMUKHI = 16  #  Guru ";
"USCRIPT_HAN = 17  #  Hani ";
"USCRIPT_HANGUL = 18  #  Hang ";
"USCRIPT_HEBREW = 19  #  Hebr ";
"USCRIPT_HIRAGANA = 20  #  Hira ";
"USCRIPT_KANNADA = 21  #  Knda ";
"USCRIPT_KATAKANA = 22  #  Kana ";
"USCRIPT_KHMER = 23  #  Khmr ";
"USCRIPT_LAO = 24  #  Laoo ";
"USCRIPT_LATIN = 25  #  Latn ";
"USCRIPT_MALAYALAM = 26  #  Mlym ";
"USCRIPT_MONGOLIAN = 27  #  Mong ";
"USCRIPT_MYANMAR = 28  #  Mymr ";
"USCRIPT_OGHAM = 29  #  Ogam ";
"USCRIPT_OLD_ITALIC = 30  #  Ital ";
"USCRIPT_ORIYA = 31  #  Orya ";
"USCRIPT_RUNIC = 32  #  Runr ";
"USCRIPT_SINHALA = 33  #  Sinh ";
"USCRIPT_SYRIAC = 34  #  Syrc ";
"USCRIPT_TAMIL = 35  #  Taml ";
"USCRIPT_TELUGU = 36  #  Telu ";
"USCRIPT_THAANA = 37  #  Thaa ";
"USCRIPT_THAI = 38  #  Thai ";
"USCRIPT_TIBETAN = 39  #  Tibt ";
"USCRIPT_CANADIAN_ABORIGINAL = 40  #  Cans ";
"USCRIPT_UCAS = USCRIPT_CANADIAN_ABORIGINAL";
"USCRIPT_YI = 41  #  Yiii ";
"USCRIPT_TAGALOG = 42  #  Tglg ";
"USCRIPT_HANUNOO = 43  #  Hano ";
"USCRIPT_BUHID = 44  #  Buhd ";
"USCRIPT_TAGBANWA = 45  #  Tagb ";
"USCRIPT_BRAILLE = 46  #  Brai ";
"USCRIPT_CYPRIOT = 47  #  Cprt ";
"USCRIPT_LIMBU = 48  #  Limb ";
"USCRIPT_LINEAR_B = 49  #  Linb ";
"USCRIPT_OSMANYA = 50  #  Osma ";
"USCRIPT_SHAVIAN = 51  #  Shaw ";
"USCRIPT_TAI_LE = 52  #  Tale ";
"USCRIPT_UGARITIC = 53  #  Ugar ";
"USCRIPT_KATAKANA_OR_HIRAGANA = 54  # Hrkt ";
"USCRIPT_BUGINESE = 55  #  Bugi ";
"USCRIPT_GLAGOLITIC = 56  #  Glag ";
"USCRIPT_KHAROSHTHI = 57  #  Khar ";
"USCRIPT_SYLOTI_NAGRI = 58  #  Sylo ";
"USCRIPT_NEW_TAI_LUE = 59  #  Talu ";
"USCRIPT_TIFINAGH = 60  #  Tfng ";
"USCRIPT_OLD_PERSIAN = 61  #  Xpeo ";
"USCRIPT_BALINESE = 62  #  Bali ";
"USCRIPT_BATAK = 63  #  Batk ";
"USCRIPT_BLISSYMBOLS = 64  #  Blis ";
"USCRIPT_BRAHMI = 65  #  Brah ";
"USCRIPT_CHAM = 66  #  Cham ";
"USCRIPT_CIRTH = 67  #  Cirt ";
"USCRIPT_OLD_CHURCH_SLAVONIC_CYRILLIC = 68  #  Cyrs ";
"USCRIPT_DEMOTIC_EGYPTIAN = 69  #  Egyd ";
"USCRIPT_HIERATIC_EGYPTIAN = 70  #  Egyh ";
"USCRIPT_EGYPTIAN_HIEROGLYPHS = 71  #  Egyp ";
"USCRIPT_KHUTSURI = 72  #  Geok ";
"USCRIPT_SIMPLIFIED_HAN = 73  #  Hans ";
"USCRIPT_TRADITIONAL_HAN = 74  #  Hant ";
"USCRIPT_PAHAWH_HMONG = 75  #  Hmng ";
"USCRIPT_OLD_HUNGARIAN = 76  #  Hung ";
"USCRIPT_HARAPPAN_INDUS = 77  #  Inds ";
"USCRIPT_JAVANESE = 78  #  Java ";
"USCRIPT_KAYAH_LI = 79  #  Kali ";
"USCRIPT_LATIN_FRAKTUR = 80  #  Latf ";
"USCRIPT_LATIN_GAELIC = 81  #  Latg ";
"USCRIPT_LEPCHA = 82  #  Lepc ";
"USCRIPT_LINEAR_A = 83  #  Lina ";
"USCRIPT_MANDAIC = 84  #  Mand ";
"USCRIPT_MANDAEAN = USCRIPT_MANDAIC";
"USCRIPT_MAYAN_HIEROGLYPHS = 85  #  Maya ";
"USCRIPT_MEROITIC_HIEROGLYPHS = 86  #  Mero ";
"USCRIPT_MEROITIC = USCRIPT_MEROITIC_HIEROGLYPHS";
"USCRIPT_NKO = 87  #  Nkoo ";
"USCRIPT_ORKHON = 88  #  Orkh ";
"USCRIPT_OLD_PERMIC = 89  #  Perm ";
"USCRIPT_PHAGS_PA = 90  #  Phag ";
"USCRIPT_PHOENICIAN = 91  #  Phnx ";
"USCRIPT_MIAO = 92  #  Plrd ";
"USCRIPT_PHONETIC_POLLARD = USCRIPT_MIAO";
"USCRIPT_RONGORONGO = 93  #  Roro ";
"USCRIPT_SARATI = 94  #  Sara ";
"USCRIPT_ESTRANGELO_SYRIAC = 95  #  Syre ";
"USCRIPT_WESTERN_SYRIAC = 96  #  Syrj ";
"USCRIPT_EASTERN_SYRIAC = 97  #  Syrn ";
"USCRIPT_TENGWAR = 98  #  Teng ";
"USCRIPT_VAI = 99  #  Vaii ";
"USCRIPT_VISIBLE_SPEECH = 100  #  Visp ";
"USCRIPT_CUNEIFORM = 101  #  Xsux ";
"USCRIPT_UNWRITTEN_LANGUAGES = 102  #  Zxxx ";
"USCRIPT_UNKNOWN = 103  #  Zzzz ";
"USCRIPT_CARIAN = 104  #  Cari ";
"USCRIPT_JAPANESE = 105  #  Jpan ";
"USCRIPT_LANNA = 106  #  Lana ";
"USCRIPT_LYCIAN = 107  #  Lyci ";
"USCRIPT_LYDIAN = 108  #  Lydi ";
"USCRIPT_OL_CHIKI = 109  #  Olck ";
"USCRIPT_REJANG = 110  #  Rjng ";
"USCRIPT_SAURASHTRA = 111  #  Saur ";
"USCRIPT_SIGN_WRITING = 112  #  Sgnw ";
"USCRIPT_SUNDANESE = 113  #  Sund ";
"USCRIPT_MOON = 114  #  Moon ";
"USCRIPT_MEITEI_MAYEK = 115  #  Mtei ";
"USCRIPT_IMPERIAL_ARAMAIC = 116  #  Armi ";
"USCRIPT_AVESTAN = 117  #  Avst ";
"USCRIPT_CHAKMA = 118  #  Cakm ";
"USCRIPT_KOREAN = 119  #  Kore ";
"USCRIPT_KAITHI = 120  #  Kthi ";
"USCRIPT_MANICHAEAN = 121  #  Mani ";
"USCRIPT_INSCRIPTIONAL_PAHLAVI = 122  #  Phli ";
"USCRIPT_PSALTER_PAHLAVI = 123  #  Phlp ";
"USCRIPT_BOOK_PAHLAVI = 124  #  Phlv ";
"USCRIPT_INSCRIPTIONAL_PARTHIAN = 125  #  Prti ";
"USCRIPT_SAMARITAN = 126  #  Samr ";
"USCRIPT_TAI_VIET = 127  #  Tavt ";
"USCRIPT_MATHEMATICAL_NOTATION = 128  #  Zmth ";
"USCRIPT_SYMBOLS = 129  #  Zsym ";
"USCRIPT_BAMUM = 130  #  Bamu ";
"USCRIPT_LISU = 131  #  Lisu ";
"USCRIPT_NAKHI_GEBA = 132  #  Nkgb ";
"USCRIPT_OLD_SOUTH_ARABIAN = 133  #  Sarb ";
"USCRIPT_BASSA_VAH = 134  #  Bass ";
"USCRIPT_DUPLOYAN = 135  #  Dupl ";
"USCRIPT_ELBASAN = 136  #  Elba ";
"USCRIPT_GRANTHA = 137  #  Gran ";
"USCRIPT_KPELLE = 138  #  Kpel ";
"USCRIPT_LOMA = 139  #  Loma ";
"USCRIPT_MENDE = 140  #  Mend ";
"USCRIPT_MEROITIC_CURSIVE = 141  #  Merc ";
"USCRIPT_OLD_NORTH_ARABIAN = 142  #  Narb ";
"USCRIPT_NABATAEAN = 143  #  Nbat ";
"USCRIPT_PALMYRENE = 144  #  Palm ";
"USCRIPT_KHUDAWADI = 145  #  Sind ";
"USCRIPT_SINDHI = USCRIPT_KHUDAWADI";
"USCRIPT_WARANG_CITI = 146  #  Wara ";
"USCRIPT_AFAKA = 147  #  Afak ";
"USCRIPT_JURCHEN = 148  #  Jurc ";
"USCRIPT_MRO = 149  #  Mroo ";
"USCRIPT_NUSHU = 150  #  Nshu ";
"USCRIPT_SHARADA = 151  #  Shrd ";
"USCRIPT_SORA_SOMPENG = 152  #  Sora ";
"USCRIPT_TAKRI = 153  #  Takr ";
"USCRIPT_TANGUT = 154  #  Tang ";
"USCRIPT_WOLEAI = 155  #  Wole ";
"USCRIPT_ANATOLIAN_HIEROGLYPHS = 156  #  Hluw ";
"USCRIPT_KHOJKI = 157  #  Khoj ";
"USCRIPT_TIRHUTA = 158  #  Tirh ";
"USCRIPT_CAUCASIAN_ALBANIAN = 159  #  Aghb ";
"USCRIPT_MAHAJANI = 160  #  Mahj ";
"USCRIPT_AHOM = 161  #  Ahom ";
"USCRIPT_HATRAN = 162  #  Hatr ";
"USCRIPT_MODI = 163  #  Modi ";
"USCRIPT_MULTANI = 164  #  Mult ";
"USCRIPT_PAU_CIN_HAU = 165  #  Pauc ";
"USCRIPT_SIDDHAM = 166  #  Sidd ";
"USCRIPT_ADLAM = 167  #  Adlm ";
"USCRIPT_BHAIKSUKI = 168  #  Bhks ";
"USCRIPT_MARCHEN = 169  #  Marc ";
"USCRIPT_NEWA = 170  #  Newa ";
"USCRIPT_OSAGE = 171  #  Osge ";
"USCRIPT_HAN_WITH_BOPOMOFO = 172  #  Hanb ";
"USCRIPT_JAMO = 173  #  Jamo ";
"USCRIPT_SYMBOLS_EMOJI = 174  #  Zsye ";
"USCRIPT_MASARAM_GONDI = 175  #  Gonm ";
"USCRIPT_SOYOMBO = 176  #  Soyo ";
"USCRIPT_ZANABAZAR_SQUARE = 177  #  Zanb ";
"USCRIPT_DOGRA = 178  #  Dogr ";
"USCRIPT_GUNJALA_GONDI = 179  #  Gong ";
"USCRIPT_MAKASAR = 180  #  Maka ";
"USCRIPT_MEDEFAIDRIN = 181  #  Medf ";
"USCRIPT_HANIFI_ROHINGYA = 182  #  Rohg ";
"USCRIPT_SOGDIAN = 183  #  Sogd ";
"USCRIPT_OLD_SOGDIAN = 184  #  Sogo ";
"USCRIPT_ELYMAIC = 185  #  Elym ";
"USCRIPT_NYIAKENG_PUACHUE_HMONG = 186  #  Hmnp ";
"USCRIPT_NANDINAGARI = 187  #  Nand ";
"USCRIPT_WANCHO = 188  #  Wcho ";
"USCRIPT_CHORASMIAN = 189  #  Chrs ";
"USCRIPT_DIVES_AKURU = 190  #  Diak ";
"USCRIPT_KHITAN_SMALL_SCRIPT = 191  #  Kits ";
"USCRIPT_YEZIDI = 192  #  Yezi ";
"USCRIPT_USAGE_NOT_ENCODED = 0";
"USCRIPT_USAGE_UNKNOWN = 1";
"USCRIPT_USAGE_EXCLUDED = 2";
"USCRIPT_USAGE_LIMITED_USE = 3";
"USCRIPT_USAGE_ASPIRATIONAL = 4";
"USCRIPT_USAGE_RECOMMENDED = 5"].

(** ucase_h.py:1-79 *)
Definition ucase_h_lines : list string := [
"""""""/";
"ucase_h.py, based on ucase.h from ICU";
"";
"Generated by HeaderToPtyhon.py on August 26, 2021 at 11:27:13 AM HST";
"""""""";
"";
"UCASE_LOC_UNKNOWN = 0";
"UCASE_LOC_ROOT = 1";
"UCASE_LOC_TURKISH = 2";
"UCASE_LOC_LITHUANIAN = 3";
"UCASE_LOC_GREEK = 4";
"UCASE_LOC_DUTCH = 5";
"UCASE_LOC_ARMENIAN = 6";
"_STRCASECMP_OPTIONS_MASK = 0xffff";
"_FOLD_CASE_OPTIONS_MASK = 7";
"UCASE_MAX_STRING_LENGTH = 0x1f";
"UCASE_DATA_NAME = ""ucase""";
"UCASE_DATA_TYPE = ""icu""";
"UCASE_FMT_0 = 0x63";
"UCASE_FMT_1 = 0x41";
"UCASE_FMT_2 = 0x53";
"UCASE_FMT_3 = 0x45";
"UCASE_IX_INDEX_TOP = 0";
"UCASE_IX_LENGTH = 1";
"UCASE_IX_TRIE_SIZE = 2";
"UCASE_IX_EXC_LENGTH = 3";
"UCASE_IX_UNFOLD_LENGTH = 4";
"UCASE_IX_MAX_FULL_LENGTH = 15";
"UCASE_IX_TOP = 16";
"UCASE_TYPE_MASK = 3";
"UCASE_NONE = 0";
"UCASE_LOWER = 1";
"UCASE_UPPER = 2";
"UCASE_TITLE = 3";
"UCASE_IGNORABLE = 4";
"UCASE_EXCEPTION = 8";
"UCASE_SENSITIVE = 0x10";
"UCASE_DOT_MASK = 0x60";
"UCASE_NO_DOT = 0  #  normal characters with cc=0 ";
"UCASE_SOFT_DOTTED = 0x20  #  soft-dotted characters with cc=0 ";
"UCASE_ABOVE = 0x40  #  ""above"" accents with cc=230 ";
"UCASE_OTHER_ACCENT = 0x60  #  other accent character (0<cc!=230) ";
"UCASE_DELTA_SHIFT = 7";
"UCASE_DELTA_MASK = 0xff80";
"UCASE_MAX_DELTA = 0xff";
"UCASE_MIN_DELTA = (-UCASE_MAX_DELTA-1)";
"UCASE_EXC_SHIFT = 4";
"UCASE_EXC_MASK = 0xfff0";
"UCASE_MAX_EXCEPTIONS = ((UCASE_EXC_MASK>>UCASE_EXC_SHIFT)+1)";
"UCASE_EXC_LOWER = 0";
"UCASE_EXC_FOLD = 1";
"UCASE_EXC_UPPER = 2";
"UCASE_EXC_TITLE = 3";
"UCASE_EXC_DELTA = 4";
"UCASE_EXC_5 = 5  #  reserved ";
"UCASE_EXC_CLOSURE = 6";
"UCASE_EXC_FULL_MAPPINGS = 7";
"UCASE_EXC_ALL_SLOTS = 8  #  one past the last slot ";
"UCASE_EXC_DOUBLE_SLOTS = 0x100";
"UCASE_EXC_NO_SIMPLE_CASE_FOLDING = 0x200";
"UCASE_EXC_DELTA_IS_NEGATIVE = 0x400";
"UCASE_EXC_SENSITIVE = 0x800";
"UCASE_EXC_DOT_SHIFT = 7";
"UCASE_EXC_DOT_MASK = 0x3000";
"UCASE_EXC_NO_DOT = 0";
"UCASE_EXC_SOFT_DOTTED = 0x1000";
"UCASE_EXC_ABOVE = 0x2000  #  ""above"" accents with cc=230 ";
"UCASE_EXC_OTHER_ACCENT = 0x3000  #  other character (0<cc!=230) ";
"UCASE_EXC_CONDITIONAL_SPECIAL = 0x4000";
"UCASE_EXC_CONDITIONAL_FOLD = 0x8000";
"UCASE_FULL_LOWER = 0xf";
"UCASE_FULL_FOLDING = 0xf0";
"UCASE_FULL_UPPER = 0xf00";
"UCASE_FULL_TITLE = 0xf000";
"UCASE_FULL_MAPPINGS_MAX_LENGTH = (4*0xf)";
"UCASE_CLOSURE_MAX_LENGTH = 0xf";
"UCASE_UNFOLD_ROWS = 0";
"UCASE_UNFOLD_ROW_WIDTH = 1";
"UCASE_UNFOLD_STRING_WIDTH = 2"].

(** uprops_h.py:1-124 *)
Definition uprops_h_lines : list string := [
"""""""/";
"uprops_h.py, based on uprops.h from ICU";
"";
"Generated by HeaderToPtyhon.py on August 26, 2021 at 11:27:13 AM HST";
"""""""";
"";
"UPROPS_PROPS32_INDEX = 0";
"UPROPS_EXCEPTIONS_INDEX = 1";
"UPROPS_EXCEPTIONS_TOP_INDEX = 2";
"UPROPS_ADDITIONAL_TRIE_INDEX = 3";
"UPROPS_ADDITIONAL_VECTORS_INDEX = 4";
"UPROPS_ADDITIONAL_VECTORS_COLUMNS_INDEX = 5";
"UPROPS_SCRIPT_EXTENSIONS_INDEX = 6";
"UPROPS_RESERVED_INDEX_7 = 7";
"UPROPS_RESERVED_INDEX_8 = 8";
"UPROPS_DATA_TOP_INDEX = 9";
"UPROPS_MAX_VALUES_INDEX = 10";
"UPROPS_MAX_VALUES_2_INDEX = 11";
"UPROPS_INDEX_COUNT = 16";
"UPROPS_NUMERIC_TYPE_VALUE_SHIFT = 6  #   6 (10 bits) ";
"UPROPS_NTV_NONE = 0";
"UPROPS_NTV_DECIMAL_START = 1";
"UPROPS_NTV_DIGIT_START = 11";
"UPROPS_NTV_NUMERIC_START = 21";
"UPROPS_NTV_FRACTION_START = 0xb0";
"UPROPS_NTV_LARGE_START = 0x1e0";
"UPROPS_NTV_BASE60_START = 0x300";
"UPROPS_NTV_FRACTION20_START = UPROPS_NTV_BASE60_START+36  # 0x300+9*4=0x324";
"UPROPS_NTV_FRACTION32_START = UPROPS_NTV_FRACTION20_START+24  # 0x324+6*4=0x34c";
"UPROPS_NTV_RESERVED_START = UPROPS_NTV_FRACTION32_START+16  # 0x34c+4*4=0x35c";
"UPROPS_NTV_MAX_SMALL_INT = UPROPS_NTV_FRACTION_START-UPROPS_NTV_NUMERIC_START-1";
"UPROPS_VECTOR_WORDS = 3";
"UPROPS_AGE_MASK = 0xff000000";
"UPROPS_AGE_SHIFT = 24";
"UPROPS_SCRIPT_X_MASK = 0x00f000ff";
"UPROPS_SCRIPT_X_SHIFT = 22";
"UPROPS_SCRIPT_HIGH_MASK = 0x00300000";
"UPROPS_SCRIPT_HIGH_SHIFT = 12";
"UPROPS_MAX_SCRIPT = 0x3ff";
"UPROPS_EA_MASK = 0x000e0000";
"UPROPS_EA_SHIFT = 17";
"UPROPS_BLOCK_MASK = 0x0001ff00";
"UPROPS_BLOCK_SHIFT = 8";
"UPROPS_SCRIPT_LOW_MASK = 0x000000ff";
"UPROPS_SCRIPT_X_WITH_COMMON = 0x400000";
"UPROPS_SCRIPT_X_WITH_INHERITED = 0x800000";
"UPROPS_SCRIPT_X_WITH_OTHER = 0xc00000";
"UPROPS_WHITE_SPACE = 0";
"UPROPS_DASH = 1";
"UPROPS_HYPHEN = 2";
"UPROPS_QUOTATION_MARK = 3";
"UPROPS_TERMINAL_PUNCTUATION = 4";
"UPROPS_MATH = 5";
"UPROPS_HEX_DIGIT = 6";
"UPROPS_ASCII_HEX_DIGIT = 7";
"UPROPS_ALPHABETIC = 8";
"UPROPS_IDEOGRAPHIC = 9";
"UPROPS_DIACRITIC = 10";
"UPROPS_EXTENDER = 11";
"UPROPS_NONCHARACTER_CODE_POINT = 12";
"UPROPS_GRAPHEME_EXTEND = 13";
"UPROPS_GRAPHEME_LINK = 14";
"UPROPS_IDS_BINARY_OPERATOR = 15";
"UPROPS_IDS_TRINARY_OPERATOR = 16";
"UPROPS_RADICAL = 17";
"UPROPS_UNIFIED_IDEOGRAPH = 18";
"UPROPS_DEFAULT_IGNORABLE_CODE_POINT = 19";
"UPROPS_DEPRECATED = 20";
"UPROPS_LOGICAL_ORDER_EXCEPTION = 21";
"UPROPS_XID_START = 22";
"UPROPS_XID_CONTINUE = 23";
"UPROPS_ID_START = 24  #  ICU 2.6, uprops format version 3.2 ";
"UPROPS_ID_CONTINUE = 25";
"UPROPS_GRAPHEME_BASE = 26";
"UPROPS_S_TERM = 27  #  new in ICU 3.0 and Unicode 4.0.1 ";
"UPROPS_VARIATION_SELECTOR = 28";
"UPROPS_PATTERN_SYNTAX = 29  #  new in ICU 3.4 and Unicode 4.1 ";
"UPROPS_PATTERN_WHITE_SPACE = 30";
"UPROPS_PREPENDED_CONCATENATION_MARK = 31  # new in ICU 60 and Unicode 10";
"UPROPS_BINARY_1_TOP = 32  #  ==32 - full! ";
"UPROPS_2_EXTENDED_PICTOGRAPHIC = 26";
"UPROPS_2_EMOJI_COMPONENT = 27";
"UPROPS_2_EMOJI = 28";
"UPROPS_2_EMOJI_PRESENTATION = 29";
"UPROPS_2_EMOJI_MODIFIER = 30";
"UPROPS_2_EMOJI_MODIFIER_BASE = 31";
"UPROPS_LB_MASK = 0x03f00000";
"UPROPS_LB_SHIFT = 20";
"UPROPS_SB_MASK = 0x000f8000";
"UPROPS_SB_SHIFT = 15";
"UPROPS_WB_MASK = 0x00007c00";
"UPROPS_WB_SHIFT = 10";
"UPROPS_GCB_MASK = 0x000003e0";
"UPROPS_GCB_SHIFT = 5";
"UPROPS_DT_MASK = 0x0000001f";
"TAB = 0x0009";
"LF = 0x000a";
"FF = 0x000c";
"CR = 0x000d";
"NBSP = 0x00a0";
"CGJ = 0x034f";
"FIGURESP = 0x2007";
"HAIRSP = 0x200a";
"ZWNJ = 0x200c";
"ZWJ = 0x200d";
"RLM = 0x200f";
"NNBSP = 0x202f";
"ZWNBSP = 0xfeff";
"UPROPS_SRC_NONE = 0";
"UPROPS_SRC_CHAR = 1";
"UPROPS_SRC_PROPSVEC = 2";
"UPROPS_SRC_NAMES = 3";
"UPROPS_SRC_CASE = 4";
"UPROPS_SRC_BIDI = 5";
"UPROPS_SRC_CHAR_AND_PROPSVEC = 6";
"UPROPS_SRC_CASE_AND_NORM = 7";
"UPROPS_SRC_NFC = 8";
"UPROPS_SRC_NFKC = 9";
"UPROPS_SRC_NFKC_CF = 10";
"UPROPS_SRC_NFC_CANON_ITER = 11";
"UPROPS_SRC_INPC = 12";
"UPROPS_SRC_INSC = 13";
"UPROPS_SRC_VO = 14";
"UPROPS_SRC_COUNT = 15"].

(** Blocks.py:1-1100 *)
Definition Blocks_lines : list string := [
"""""""\";
"Based on UBlockCode from uchar.h in ICU";
"";
"Created on May 4, 2020";
"";
"@author Eric Mader";
"""""""";
"";
"UBLOCK_NO_BLOCK = 0  # [none] Special range indicating No_Block";
"";
"# @stable ICU 2.0";
"UBLOCK_BASIC_LATIN = 1  # [0000]";
"";
"# @stable ICU 2.0";
"UBLOCK_LATIN_1_SUPPLEMENT = 2  # [0080]";
"";
"# @stable ICU 2.0";
"UBLOCK_LATIN_EXTENDED_A = 3  # [0100]";
"";
"# @stable ICU 2.0";
"UBLOCK_LATIN_EXTENDED_B = 4  # [0180]";
"";
"# @stable ICU 2.0";
"UBLOCK_IPA_EXTENSIONS = 5  # [0250]";
"";
"# @stable ICU 2.0";
"UBLOCK_SPACING_MODIFIER_LETTERS = 6  # [02B0]";
"";
"# @stable ICU 2.0";
"UBLOCK_COMBINING_DIACRITICAL_MARKS = 7  # [0300]";
"";
"# Unicode 3.2 renames this block to ""Greek and Coptic"".";
"# @ stable ICU 2.0";
"";
"UBLOCK_GREEK = 8  # [0370]";
"";
"# @stable ICU 2.0";
"UBLOCK_CYRILLIC = 9  # [0400]";
"";
"# @stable ICU 2.0";
"UBLOCK_ARMENIAN = 10  # [0530]";
"";
"# @stable ICU 2.0";
"UBLOCK_HEBREW = 11  # [0590]";
"";
"# @stable ICU 2.0";
"UBLOCK_ARABIC = 12  # [0600]";
"";
"# @stable ICU 2.0";
"UBLOCK_SYRIAC = 13  # [0700]";
"";
"# @stable ICU 2.0";
"UBLOCK_THAANA = 14  # [0780]";
"";
"# @stable ICU 2.0";
"UBLOCK_DEVANAGARI = 15  # [0900]";
"";
"# @stable ICU 2.0";
"UBLOCK_BENGALI = 16  # [0980]";
"";
"# @stable ICU 2.0";
"UBLOCK_GURMUKHI = 17  # [0A00]";
"";
"# @stable ICU 2.0";
"UBLOCK_GUJARATI = 18  # [0A80]";
"";
"# @stable ICU 2.0";
"UBLOCK_ORIYA = 19  # [0B00]";
"";
"# @stable ICU 2.0";
"UBLOCK_TAMIL = 20  # [0B80]";
"";
"# @stable ICU 2.0";
"UBLOCK_TELUGU = 21  # [0C00]";
"";
"# @stable ICU 2.0";
"UBLOCK_KANNADA = 22  # [0C80]";
"";
"# @stable ICU 2.0";
"UBLOCK_MALAYALAM = 23  # [0D00]";
"";
"# @stable ICU 2.0";
"UBLOCK_SINHALA = 24  # [0D80]";
"";
"# @stable ICU 2.0";
"UBLOCK_THAI = 25  # [0E00]";
"";
"# @stable ICU 2.0";
"UBLOCK_LAO = 26  # [0E80]";
"";
"# @stable ICU 2.0";
"UBLOCK_TIBETAN = 27  # [0F00]";
"";
"# @stable ICU 2.0";
"UBLOCK_MYANMAR = 28  # [1000]";
"";
"# @stable ICU 2.0";
"UBLOCK_GEORGIAN = 29  # [10A0]";
"";
"# @stable ICU 2.0";
"UBLOCK_HANGUL_JAMO = 30  # [1100]";
"";
"# @stable ICU 2.0";
"UBLOCK_ETHIOPIC = 31  # [1200]";
"";
"# @stable ICU 2.0";
"UBLOCK_CHEROKEE = 32  # [13A0]";
"";
"# @stable ICU 2.0";
"UBLOCK_UNIFIED_CANADIAN_ABORIGINAL_SYLLABICS = 33  # [1400]";
"";
"# @stable ICU 2.0";
"UBLOCK_OGHAM = 34  # [1680]";
"";
"# @stable ICU 2.0";
"UBLOCK_RUNIC = 35  # [16A0]";
"";
"# @stable ICU 2.0";
"UBLOCK_KHMER = 36  # [1780]";
"";
"# @stable ICU 2.0";
"UBLOCK_MONGOLIAN = 37  # [1800]";
"";
"# @stable ICU 2.0";
"UBLOCK_LATIN_EXTENDED_ADDITIONAL = 38  # [1E00]";
"";
"# @stable ICU 2.0";
"UBLOCK_GREEK_EXTENDED = 39  # [1F00]";
"";
"# @stable ICU 2.0";
"UBLOCK_GENERAL_PUNCTUATION = 40  # [2000]";
"";
"# @stable ICU 2.0";
"UBLOCK_SUPERSCRIPTS_AND_SUBSCRIPTS = 41  # [2070]";
"";
"# @stable ICU 2.0";
"UBLOCK_CURRENCY_SYMBOLS = 42  # [20A0]";
"";
"# Unicode 3.2 renames this block to ""Diacriticals for Symbols"".";
"# @ stable ICU 2.0";
"";
"UBLOCK_COMBINING_MARKS_FOR_SYMBOLS = 43  # [20D0]";
"";
"# @stable ICU 2.0";
"UBLOCK_LETTERLIKE_SYMBOLS = 44  # [2100]";
"";
"# @stable ICU 2.0";
"UBLOCK_NUMBER_FORMS = 45  # [2150]";
"";
"# @stable ICU 2.0";
"UBLOCK_ARROWS = 46  # [2190]";
"";
"# @stable ICU 2.0";
"UBLOCK_MATHEMATICAL_OPERATORS = 47  # [2200]";
"";
"# @stable ICU 2.0";
"UBLOCK_MISCELLANEOUS_TECHNICAL = 48  # [2300]";
"";
"# @stable ICU 2.0";
"UBLOCK_CONTROL_PICTURES = 49  # [2400]";
"";
"# @stable ICU 2.0";
"UBLOCK_OPTICAL_CHARACTER_RECOGNITION = 50  # [2440]";
"";
"# @stable ICU 2.0";
"UBLOCK_ENCLOSED_ALPHANUMERICS = 51  # [2460]";
"";
"# @stable ICU 2.0";
"UBLOCK_BOX_DRAWING = 52  # [2500]";
"";
"# @stable ICU 2.0";
"UBLOCK_BLOCK_ELEMENTS = 53  # [2580]";
"";
"# @stable ICU 2.0";
"UBLOCK_GEOMETRIC_SHAPES = 54  # [25A0]";
"";
"# @stable ICU 2.0";
"UBLOCK_MISCELLANEOUS_SYMBOLS = 55  # [2600]";
"";
"# @stable ICU 2.0";
"UBLOCK_DINGBATS = 56  # [2700]";
"";
"# @stable ICU 2.0";
"UBLOCK_BRAILLE_PATTERNS = 57  # [2800]";
"";
"# @stable ICU 2.0";
"UBLOCK_CJK_RADICALS_SUPPLEMENT = 58  # [2E80]";
"";
"# @stable ICU 2.0";
"UBLOCK_KANGXI_RADICALS = 59  # [2F00]";
"";
"# @stable ICU 2.0";
"UBLOCK_IDEOGRAPHIC_DESCRIPTION_CHARACTERS = 60  # [2FF0]";
"";
"# @stable ICU 2.0";
"UBLOCK_CJK_SYMBOLS_AND_PUNCTUATION = 61  # [3000]";
"";
"# @stable ICU 2.0";
"UBLOCK_HIRAGANA = 62  # [3040]";
"";
"# @stable ICU 2.0";
"UBLOCK_KATAKANA = 63  # [30A0]";
"";
"# @stable ICU 2.0";
"UBLOCK_BOPOMOFO = 64  # [3100]";
"";
"# @stable ICU 2.0";
"UBLOCK_HANGUL_COMPATIBILITY_JAMO = 65  # [3130]";
"";
"# @stable ICU 2.0";
"UBLOCK_KANBUN = 66  # [3190]";
"";
"# @stable ICU 2.0";
"UBLOCK_BOPOMOFO_EXTENDED = 67  # [31A0]";
"";
"# @stable ICU 2.0";
"UBLOCK_ENCLOSED_CJK_LETTERS_AND_MONTHS = 68  # [3200]";
"";
"# @stable ICU 2.0";
"UBLOCK_CJK_COMPATIBILITY = 69  # [3300]";
"";
"# @stable ICU 2.0";
"UBLOCK_CJK_UNIFIED_IDEOGRAPHS_EXTENSION_A = 70  # [3400]";
"";
"# @stable ICU 2.0";
"UBLOCK_CJK_UNIFIED_IDEOGRAPHS = 71  # [4E00]";
"";
"# @stable ICU 2.0";
"UBLOCK_YI_SYLLABLES = 72  # [A000]";
"";
"# @stable ICU 2.0";
"UBLOCK_YI_RADICALS = 73  # [A490]";
"";
"# @stable ICU 2.0";
"UBLOCK_HANGUL_SYLLABLES = 74  # [AC00]";
"";
"# @stable ICU 2.0";
"UBLOCK_HIGH_SURROGATES = 75  # [D800]";
"";
"# @stable ICU 2.0";
"UBLOCK_HIGH_PRIVATE_USE_SURROGATES = 76  # [DB80]";
"";
"# @stable ICU 2.0";
"UBLOCK_LOW_SURROGATES = 77  # [DC00]";
"";
"# Same as UBLOCK_PRIVATE_USE.";
"# Until Unicode 3.1.1, the corresponding block name was ""Private Use"",";
"# and multiple code point ranges had this block.";
"# *Unicode 3.2 renames the block for the BMP PUA to ""Private Use Area"" and";
"# adds eparate blocks";
"#";
"# @ stable ICU 2.0";
"";
"UBLOCK_PRIVATE_USE_AREA = 78  # [E000]";
"#";
"# Same as UBLOCK_PRIVATE_USE_AREA.";
"# Until Unicode 3.1.1, the corresponding block name was ""Private Use"",";
"# and multiple code point ranges had this block.";
"# Unicode 3.2 renames the block for the BMP PUA to ""Private Use Area"" and";
"# adds separate blocks for the supplementary PUAs.";
"#";
"#* @ stable ICU 2.0";
"";
"UBLOCK_PRIVATE_USE = UBLOCK_PRIVATE_USE_AREA,";
"";
"# @stable ICU 2.0";
"UBLOCK_CJK_COMPATIBILITY_IDEOGRAPHS = 79  # [F900]";
"";
"# @stable ICU 2.0";
"UBLOCK_ALPHABETIC_PRESENTATION_FORMS = 80  # [FB00]";
"";
"# @stable ICU 2.0";
"UBLOCK_ARABIC_PRESENTATION_FORMS_A = 81  # [FB50]";
"";
"# @stable ICU 2.0";
"UBLOCK_COMBINING_HALF_MARKS = 82  # [FE20]";
"";
"# @stable ICU 2.0";
"UBLOCK_CJK_COMPATIBILITY_FORMS = 83  # [FE30]";
"";
"# @stable ICU 2.0";
"UBLOCK_SMALL_FORM_VARIANTS = 84  # [FE50]";
"";
"# @stable ICU 2.0";
"UBLOCK_ARABIC_PRESENTATION_FORMS_B = 85  # [FE70]";
"";
"# @stable ICU 2.0";
"UBLOCK_SPECIALS = 86  # [FFF0]";
"";
"# @stable ICU 2.0";
"UBLOCK_HALFWIDTH_AND_FULLWIDTH_FORMS = 87  # [FF00]";
"";
"#  New blocks in Unicode 3.1";
"";
"# @stable ICU 2.0";
"UBLOCK_OLD_ITALIC = 88  # [10300]";
"# @stable ICU 2.0";
"UBLOCK_GOTHIC = 89  # [10330]";
"# @stable ICU 2.0";
"UBLOCK_DESERET = 90  # [10400]";
"# @stable ICU 2.0";
"UBLOCK_BYZANTINE_MUSICAL_SYMBOLS = 91  # [1D000]";
"# @stable ICU 2.0";
"UBLOCK_MUSICAL_SYMBOLS = 92  # [1D100]";
"# @stable ICU 2.0";
"UBLOCK_MATHEMATICAL_ALPHANUMERIC_SYMBOLS = 93  # [1D400]";
"# @stable ICU 2.0";
"UBLOCK_CJK_UNIFIED_IDEOGRAPHS_EXTENSION_B = 94  # [20000]";
"# @stable ICU 2.0";
"UBLOCK_CJK_COMPATIBILITY_IDEOGRAPHS_SUPPLEMENT = 95  # [2F800]";
"# @stable ICU 2.0";
"UBLOCK_TAGS = 96  # [E0000]";
"";
"#  New blocks in Unicode 3.2";
"";
"# @stable ICU 3.0";
"UBLOCK_CYRILLIC_SUPPLEMENT = 97  # [0500]";
"#";
"# Unicode 4.0.1 renames the ""Cyrillic Supary"" block to ""Cyrillic Sup"".";
"# @ stable ICU 2.2";
"";
"UBLOCK_CYRILLIC_SUPPLEMENTARY = UBLOCK_CYRILLIC_SUPPLEMENT,";
"# @stable ICU 2.2";
"UBLOCK_TAGALOG = 98  # [1700]";
"# @stable ICU 2.2";
"UBLOCK_HANUNOO = 99  # [1720]";
"# @stable ICU 2.2";
"UBLOCK_BUHID = 100  # [1740]";
"# @stable ICU 2.2";
"UBLOCK_TAGBANWA = 101  # [1760]";
"# @stable ICU 2.2";
"UBLOCK_MISCELLANEOUS_MATHEMATICAL_SYMBOLS_A = 102  # [27C0]";
"# @stable ICU 2.2";
"UBLOCK_SUPPLEMENTAL_ARROWS_A = 103  # [27F0]";
"# @stable ICU 2.2";
"UBLOCK_SUPPLEMENTAL_ARROWS_B = 104  # [2900]";
"# @stable ICU 2.2";
"UBLOCK_MISCELLANEOUS_MATHEMATICAL_SYMBOLS_B = 105  # [2980]";
"# @stable ICU 2.2";
"UBLOCK_SUPPLEMENTAL_MATHEMATICAL_OPERATORS = 106  # [2A00]";
"# @stable ICU 2.2";
"UBLOCK_KATAKANA_PHONETIC_EXTENSIONS = 107  # [31F0]";
"# @stable ICU 2.2";
"UBLOCK_VARIATION_SELECTORS = 108  # [FE00]";
"# @stable ICU 2.2";
"UBLOCK_SUPPLEMENTARY_PRIVATE_USE_AREA_A = 109  # [F0000]";
"# @stable ICU 2.2";
"UBLOCK_SUPPLEMENTARY_PRIVATE_USE_AREA_B = 110  # [100000]";
"";
"#  New blocks in Unicode 4";
"";
"# @stable ICU 2.6";
"UBLOCK_LIMBU = 111  # [1900]";
"# @stable ICU 2.6";
"UBLOCK_TAI_LE = 112  # [1950]";
"# @stable ICU 2.6";
"UBLOCK_KHMER_SYMBOLS = 113  # [19E0]";
"# @stable ICU 2.6";
"UBLOCK_PHONETIC_EXTENSIONS = 114  # [1D00]";
"# @stable ICU 2.6";
"UBLOCK_MISCELLANEOUS_SYMBOLS_AND_ARROWS = 115  # [2B00]";
"# @stable ICU 2.6";
"UBLOCK_YIJING_HEXAGRAM_SYMBOLS = 116  # [4DC0]";
"# @stable ICU 2.6";
"UBLOCK_LINEAR_B_SYLLABARY = 117  # [10000]";
"# @stable ICU 2.6";
"UBLOCK_LINEAR_B_IDEOGRAMS = 118  # [10080]";
"# @stable ICU 2.6";
"UBLOCK_AEGEAN_NUMBERS = 119  # [10100]";
"# @stable ICU 2.6";
"UBLOCK_UGARITIC = 120  # [10380]";
"# @stable ICU 2.6";
"UBLOCK_SHAVIAN = 121  # [10450]";
"# @stable ICU 2.6";
"UBLOCK_OSMANYA = 122  # [10480]";
"# @stable ICU 2.6";
"UBLOCK_CYPRIOT_SYLLABARY = 123  # [10800]";
"# @stable ICU 2.6";
"UBLOCK_TAI_XUAN_JING_SYMBOLS = 124  # [1D300]";
"# @stable ICU 2.6";
"UBLOCK_VARIATION_SELECTORS_SUPPLEMENT = 125  # [E0100]";
"";
"#  New blocks in Unicode 4.1";
"";
"# @stable ICU 3.4";
"UBLOCK_ANCIENT_GREEK_MUSICAL_NOTATION = 126  # [1D200]";
"# @stable ICU 3.4";
"UBLOCK_ANCIENT_GREEK_NUMBERS = 127  # [10140]";
"# @stable ICU 3.4";
"UBLOCK_ARABIC_SUPPLEMENT = 128  # [0750]";
"# @stable ICU 3.4";
"UBLOCK_BUGINESE = 129  # [1A00]";
"# @stable ICU 3.4";
"UBLOCK_CJK_STROKES = 130  # [31C0]";
"# @stable ICU 3.4";
"UBLOCK_COMBINING_DIACRITICAL_MARKS_SUPPLEMENT = 131  # [1DC0]";
"# @stable ICU 3.4";
"UBLOCK_COPTIC = 132  # [2C80]";
"# @stable ICU 3.4";
"UBLOCK_ETHIOPIC_EXTENDED = 133  # [2D80]";
"# @stable ICU 3.4";
"UBLOCK_ETHIOPIC_SUPPLEMENT = 134  # [1380]";
"# @stable ICU 3.4";
"UBLOCK_GEORGIAN_SUPPLEMENT = 135  # [2D00]";
"# @stable ICU 3.4";
"UBLOCK_GLAGOLITIC = 136  # [2C00]";
"# @stable ICU 3.4";
"UBLOCK_KHAROSHTHI = 137  # [10A00]";
"# @stable ICU 3.4";
"UBLOCK_MODIFIER_TONE_LETTERS = 138  # [A700]";
"# @stable ICU 3.4";
"UBLOCK_NEW_TAI_LUE = 139  # [1980]";
"# @stable ICU 3.4";
"UBLOCK_OLD_PERSIAN = 140  # [103A0]";
"# @stable ICU 3.4";
"UBLOCK_PHONETIC_EXTENSIONS_SUPPLEMENT = 141  # [1D80]";
"# @stable ICU 3.4";
"UBLOCK_SUPPLEMENTAL_PUNCTUATION = 142  # [2E00]";
"# @stable ICU 3.4";
"UBLOCK_SYLOTI_NAGRI = 143  # [A800]";
"# @stable ICU 3.4";
"UBLOCK_TIFINAGH = 144  # [2D30]";
"# @stable ICU 3.4";
"UBLOCK_VERTICAL_FORMS = 145  # [FE10]";
"";
"#  New blocks in Unicode 5.0";
"";
"# @stable ICU 3.6";
"UBLOCK_NKO = 146  # [07C0]";
"# @stable ICU 3.6";
"UBLOCK_BALINESE = 147  # [1B00]";
"# @stable ICU 3.6";
"UBLOCK_LATIN_EXTENDED_C = 148  # [2C60]";
"# @stable ICU 3.6";
"UBLOCK_LATIN_EXTENDED_D = 149  # [A720]";
"# @stable ICU 3.6";
"UBLOCK_PHAGS_PA = 150  # [A840]";
"# @stable ICU 3.6";
"UBLOCK_PHOENICIAN = 151  # [10900]";
"# @stable ICU 3.6";
"UBLOCK_CUNEIFORM = 152  # [12000]";
"# @stable ICU 3.6";
"UBLOCK_CUNEIFORM_NUMBERS_AND_PUNCTUATION = 153  # [12400]";
"# @stable ICU 3.6";
"UBLOCK_COUNTING_ROD_NUMERALS = 154  # [1D360]";
"";
"#  New blocks in Unicode 5.1";
"";
"# @stable ICU 4.0";
"UBLOCK_SUNDANESE = 155  # [1B80]";
"# @stable ICU 4.0";
"UBLOCK_LEPCHA = 156  # [1C00]";
"# @stable ICU 4.0";
"UBLOCK_OL_CHIKI = 157  # [1C50]";
"# @stable ICU 4.0";
"UBLOCK_CYRILLIC_EXTENDED_A = 158  # [2DE0]";
"# @stable ICU 4.0";
"UBLOCK_VAI = 159  # [A500]";
"# @stable ICU 4.0";
"UBLOCK_CYRILLIC_EXTENDED_B = 160  # [A640]";
"# @stable ICU 4.0";
"UBLOCK_SAURASHTRA = 161  # [A880]";
"# @stable ICU 4.0";
"UBLOCK_KAYAH_LI = 162  # [A900]";
"# @stable ICU 4.0";
"UBLOCK_REJANG = 163  # [A930]";
"# @stable ICU 4.0";
"UBLOCK_CHAM = 164  # [AA00]";
"# @stable ICU 4.0";
"UBLOCK_ANCIENT_SYMBOLS = 165  # [10190]";
"# @stable ICU 4.0";
"UBLOCK_PHAISTOS_DISC = 166  # [101D0]";
"# @stable ICU 4.0";
"UBLOCK_LYCIAN = 167  # [10280]";
"# @stable ICU 4.0";
"UBLOCK_CARIAN = 168  # [102A0]";
"# @stable ICU 4.0";
"UBLOCK_LYDIAN = 169  # [10920]";
"# @stable ICU 4.0";
"UBLOCK_MAHJONG_TILES = 170  # [1F000]";
"# @stable ICU 4.0";
"UBLOCK_DOMINO_TILES = 171  # [1F030]";
"";
"#  New blocks in Unicode 5.2";
"";
"# @stable ICU 4.4";
"UBLOCK_SAMARITAN = 172  # [0800]";
"# @stable ICU 4.4";
"UBLOCK_UNIFIED_CANADIAN_ABORIGINAL_SYLLABICS_EXTENDED = 173  # [18B0]";
"# @stable ICU 4.4";
"UBLOCK_TAI_THAM = 174  # [1A20]";
"# @stable ICU 4.4";
"UBLOCK_VEDIC_EXTENSIONS = 175  # [1CD0]";
"# @stable ICU 4.4";
"UBLOCK_LISU = 176  # [A4D0]";
"# @stable ICU 4.4";
"UBLOCK_BAMUM = 177  # [A6A0]";
"# @stable ICU 4.4";
"UBLOCK_COMMON_INDIC_NUMBER_FORMS = 178  # [A830]";
"# @stable ICU 4.4";
"UBLOCK_DEVANAGARI_EXTENDED = 179  # [A8E0]";
"# @stable ICU 4.4";
"UBLOCK_HANGUL_JAMO_EXTENDED_A = 180  # [A960]";
"# @stable ICU 4.4";
"UBLOCK_JAVANESE = 181  # [A980]";
"# @stable ICU 4.4";
"UBLOCK_MYANMAR_EXTENDED_A = 182  # [AA60]";
"# @stable ICU 4.4";
"UBLOCK_TAI_VIET = 183  # [AA80]";
"# @stable ICU 4.4";
"UBLOCK_MEETEI_MAYEK = 184  # [ABC0]";
"# @stable ICU 4.4";
"UBLOCK_HANGUL_JAMO_EXTENDED_B = 185  # [D7B0]";
"# @stable ICU 4.4";
"UBLOCK_IMPERIAL_ARAMAIC = 186  # [10840]";
"# @stable ICU 4.4";
"UBLOCK_OLD_SOUTH_ARABIAN = 187  # [10A60]";
"# @stable ICU 4.4";
"UBLOCK_AVESTAN = 188  # [10B00]";
"# @stable ICU 4.4";
"UBLOCK_INSCRIPTIONAL_PARTHIAN = 189  # [10B40]";
"# @stable ICU 4.4";
"UBLOCK_INSCRIPTIONAL_PAHLAVI = 190  # [10B60]";
"# @stable ICU 4.4";
"UBLOCK_OLD_TURKIC = 191  # [10C00]";
"# @stable ICU 4.4";
"UBLOCK_RUMI_NUMERAL_SYMBOLS = 192  # [10E60]";
"# @stable ICU 4.4";
"UBLOCK_KAITHI = 193  # [11080]";
"# @stable ICU 4.4";
"UBLOCK_EGYPTIAN_HIEROGLYPHS = 194  # [13000]";
"# @stable ICU 4.4";
"UBLOCK_ENCLOSED_ALPHANUMERIC_SUPPLEMENT = 195  # [1F100]";
"# @stable ICU 4.4";
"UBLOCK_ENCLOSED_IDEOGRAPHIC_SUPPLEMENT = 196  # [1F200]";
"# @stable ICU 4.4";
"UBLOCK_CJK_UNIFIED_IDEOGRAPHS_EXTENSION_C = 197  # [2A700]";
"";
"#  New blocks in Unicode 6.0";
"";
"# @stable ICU 4.6";
"UBLOCK_MANDAIC = 198  # [0840]";
"# @stable ICU 4.6";
"UBLOCK_BATAK = 199  # [1BC0]";
"# @stable ICU 4.6";
"UBLOCK_ETHIOPIC_EXTENDED_A = 200  # [AB00]";
"# @stable ICU 4.6";
"UBLOCK_BRAHMI = 201  # [11000]";
"# @stable ICU 4.6";
"UBLOCK_BAMUM_SUPPLEMENT = 202  # [16800]";
"# @stable ICU 4.6";
"UBLOCK_KANA_SUPPLEMENT = 203  # [1B000]";
"# @stable ICU 4.6";
"UBLOCK_PLAYING_CARDS = 204  # [1F0A0]";
"# @stable ICU 4.6";
"UBLOCK_MISCELLANEOUS_SYMBOLS_AND_PICTOGRAPHS = 205  # [1F300]";
"# @stable ICU 4.6";
"UBLOCK_EMOTICONS = 206  # [1F600]";
"# @stable ICU 4.6";
"UBLOCK_TRANSPORT_AND_MAP_SYMBOLS = 207  # [1F680]";
"# @stable ICU 4.6";
"UBLOCK_ALCHEMICAL_SYMBOLS = 208  # [1F700]";
"# @stable ICU 4.6";
"UBLOCK_CJK_UNIFIED_IDEOGRAPHS_EXTENSION_D = 209  # [2B740]";
"";
"#  New blocks in Unicode 6.1";
"";
"# @stable ICU 49";
"UBLOCK_ARABIC_EXTENDED_A = 210  # [08A0]";
"# @stable ICU 49";
"UBLOCK_ARABIC_MATHEMATICAL_ALPHABETIC_SYMBOLS = 211  # [1EE00]";
"# @stable ICU 49";
"UBLOCK_CHAKMA = 212  # [11100]";
"# @stable ICU 49";
"UBLOCK_MEETEI_MAYEK_EXTENSIONS = 213  # [AAE0]";
"# @stable ICU 49";
"UBLOCK_MEROITIC_CURSIVE = 214  # [109A0]";
"# @stable ICU 49";
"UBLOCK_MEROITIC_HIEROGLYPHS = 215  # [10980]";
"# @stable ICU 49";
"UBLOCK_MIAO = 216  # [16F00]";
"# @stable ICU 49";
"UBLOCK_SHARADA = 217  # [11180]";
"# @stable ICU 49";
"UBLOCK_SORA_SOMPENG = 218  # [110D0]";
"# @stable ICU 49";
"UBLOCK_SUNDANESE_SUPPLEMENT = 219  # [1CC0]";
"# @stable ICU 49";
"UBLOCK_TAKRI = 220  # [11680]";
"";
"#  New blocks in Unicode 7.0";
"";
"# @stable ICU 54";
"UBLOCK_BASSA_VAH = 221  # [16AD0]";
"# @stable ICU 54";
"UBLOCK_CAUCASIAN_ALBANIAN = 222  # [10530]";
"# @stable ICU 54";
"UBLOCK_COPTIC_EPACT_NUMBERS = 223  # [102E0]";
"# @stable ICU 54";
"UBLOCK_COMBINING_DIACRITICAL_MARKS_EXTENDED = 224  # [1AB0]";
"# @stable ICU 54";
"UBLOCK_DUPLOYAN = 225  # [1BC00]";
"# @stable ICU 54";
"UBLOCK_ELBASAN = 226  # [10500]";
"# @stable ICU 54";
"UBLOCK_GEOMETRIC_SHAPES_EXTENDED = 227  # [1F780]";
"# @stable ICU 54";
"UBLOCK_GRANTHA = 228  # [11300]";
"# @stable ICU 54";
"UBLOCK_KHOJKI = 229  # [11200]";
"# @stable ICU 54";
"UBLOCK_KHUDAWADI = 230  # [112B0]";
"# @stable ICU 54";
"UBLOCK_LATIN_EXTENDED_E = 231  # [AB30]";
"# @stable ICU 54";
"UBLOCK_LINEAR_A = 232  # [10600]";
"# @stable ICU 54";
"UBLOCK_MAHAJANI = 233  # [11150]";
"# @stable ICU 54";
"UBLOCK_MANICHAEAN = 234  # [10AC0]";
"# @stable ICU 54";
"UBLOCK_MENDE_KIKAKUI = 235  # [1E800]";
"# @stable ICU 54";
"UBLOCK_MODI = 236  # [11600]";
"# @stable ICU 54";
"UBLOCK_MRO = 237  # [16A40]";
"# @stable ICU 54";
"UBLOCK_MYANMAR_EXTENDED_B = 238  # [A9E0]";
"# @stable ICU 54";
"UBLOCK_NABATAEAN = 239  # [10880]";
"# @stable ICU 54";
"UBLOCK_OLD_NORTH_ARABIAN = 240  # [10A80]";
"# @stable ICU 54";
"UBLOCK_OLD_PERMIC = 241  # [10350]";
"# @stable ICU 54";
"UBLOCK_ORNAMENTAL_DINGBATS = 242  # [1F650]";
"# @stable ICU 54";
"UBLOCK_PAHAWH_HMONG = 243  # [16B00]";
"# @stable ICU 54";
"UBLOCK_PALMYRENE = 244  # [10860]";
"# @stable ICU 54";
"UBLOCK_PAU_CIN_HAU = 245  # [11AC0]";
"# @stable ICU 54";
"UBLOCK_PSALTER_PAHLAVI = 246  # [10B80]";
"# @stable ICU 54";
"UBLOCK_SHORTHAND_FORMAT_CONTROLS = 247  # [1BCA0]";
"# @stable ICU 54";
"UBLOCK_SIDDHAM = 248  # [11580]";
"# @stable ICU 54";
"UBLOCK_SINHALA_ARCHAIC_NUMBERS = 249  # [111E0]";
"# @stable ICU 54";
"UBLOCK_SUPPLEMENTAL_ARROWS_C = 250  # [1F800]";
"# @stable ICU 54";
"UBLOCK_TIRHUTA = 251  # [11480]";
"# @stable ICU 54";
"UBLOCK_WARANG_CITI = 252  # [118A0]";
"";
"#  New blocks in Unicode 8.0";
"";
"# @stable ICU 56";
"UBLOCK_AHOM = 253  # [11700]";
"# @stable ICU 56";
"UBLOCK_ANATOLIAN_HIEROGLYPHS = 254  # [14400]";
"# @stable ICU 56";
"UBLOCK_CHEROKEE_SUPPLEMENT = 255  # [AB70]";
"# @stable ICU 56";
"UBLOCK_CJK_UNIFIED_IDEOGRAPHS_EXTENSION_E = 256  # [2B820]";
"# @stable ICU 56";
"UBLOCK_EARLY_DYNASTIC_CUNEIFORM = 257  # [12480]";
"# @stable ICU 56";
"UBLOCK_HATRAN = 258  # [108E0]";
"# @stable ICU 56";
"UBLOCK_MULTANI = 259  # [11280]";
"# @stable ICU 56";
"UBLOCK_OLD_HUNGARIAN = 260  # [10C80]";
"# @stable ICU 56";
"UBLOCK_SUPPLEMENTAL_SYMBOLS_AND_PICTOGRAPHS = 261  # [1F900]";
"# @stable ICU 56";
"UBLOCK_SUTTON_SIGNWRITING = 262  # [1D800]";
"";
"#  New blocks in Unicode 9.0";
"";
"# @stable ICU 58";
"UBLOCK_ADLAM = 263  # [1E900]";
"# @stable ICU 58";
"UBLOCK_BHAIKSUKI = 264  # [11C00]";
"# @stable ICU 58";
"UBLOCK_CYRILLIC_EXTENDED_C = 265  # [1C80]";
"# @stable ICU 58";
"UBLOCK_GLAGOLITIC_SUPPLEMENT = 266  # [1E000]";
"# @stable ICU 58";
"UBLOCK_IDEOGRAPHIC_SYMBOLS_AND_PUNCTUATION = 267  # [16FE0]";
"# @stable ICU 58";
"UBLOCK_MARCHEN = 268  # [11C70]";
"# @stable ICU 58";
"UBLOCK_MONGOLIAN_SUPPLEMENT = 269  # [11660]";
"# @stable ICU 58";
"UBLOCK_NEWA = 270  # [11400]";
"# @stable ICU 58";
"UBLOCK_OSAGE = 271  # [104B0]";
"# @stable ICU 58";
"UBLOCK_TANGUT = 272  # [17000]";
"# @stable ICU 58";
"UBLOCK_TANGUT_COMPONENTS = 273  # [18800]";
"";
"# New blocks in Unicode 10.0";
"";
"# @stable ICU 60";
"UBLOCK_CJK_UNIFIED_IDEOGRAPHS_EXTENSION_F = 274  # [2CEB0]";
"# @stable ICU 60";
"UBLOCK_KANA_EXTENDED_A = 275  # [1B100]";
"# @stable ICU 60";
"UBLOCK_MASARAM_GONDI = 276  # [11D00]";
"# @stable ICU 60";
"UBLOCK_NUSHU = 277  # [1B170]";
"# @stable ICU 60";
"UBLOCK_SOYOMBO = 278  # [11A50]";
"# @stable ICU 60";
"UBLOCK_SYRIAC_SUPPLEMENT = 279  # [0860]";
"# @stable ICU 60";
"UBLOCK_ZANABAZAR_SQUARE = 280  # [11A00]";
"";
"# New blocks in Unicode 11.0";
"";
"# @stable ICU 62";
"UBLOCK_CHESS_SYMBOLS = 281  # [1FA00]";
"# @stable ICU 62";
"UBLOCK_DOGRA = 282  # [11800]";
"# @stable ICU 62";
"UBLOCK_GEORGIAN_EXTENDED = 283  # [1C90]";
"# @stable ICU 62";
"UBLOCK_GUNJALA_GONDI = 284  # [11D60]";
"# @stable ICU 62";
"UBLOCK_HANIFI_ROHINGYA = 285  # [10D00]";
"# @stable ICU 62";
"UBLOCK_INDIC_SIYAQ_NUMBERS = 286  # [1EC70]";
"# @stable ICU 62";
"UBLOCK_MAKASAR = 287  # [11EE0]";
"# @stable ICU 62";
"UBLOCK_MAYAN_NUMERALS = 288  # [1D2E0]";
"# @stable ICU 62";
"UBLOCK_MEDEFAIDRIN = 289  # [16E40]";
"# @stable ICU 62";
"UBLOCK_OLD_SOGDIAN = 290  # [10F00]";
"# @stable ICU 62";
"UBLOCK_SOGDIAN = 291  # [10F30]";
"";
"# New blocks in Unicode 12.0";
"";
"# @stable ICU 64";
"UBLOCK_EGYPTIAN_HIEROGLYPH_FORMAT_CONTROLS = 292  # [13430]";
"# @stable ICU 64";
"UBLOCK_ELYMAIC = 293  # [10FE0]";
"# @stable ICU 64";
"UBLOCK_NANDINAGARI = 294  # [119A0]";
"# @stable ICU 64";
"UBLOCK_NYIAKENG_PUACHUE_HMONG = 295  # [1E100]";
"# @stable ICU 64";
"UBLOCK_OTTOMAN_SIYAQ_NUMBERS = 296  # [1ED00]";
"# @stable ICU 64";
"UBLOCK_SMALL_KANA_EXTENSION = 297  # [1B130]";
"# @stable ICU 64";
"UBLOCK_SYMBOLS_AND_PICTOGRAPHS_EXTENDED_A = 298  # [1FA70]";
"# @stable ICU 64";
"UBLOCK_TAMIL_SUPPLEMENT = 299  # [11FC0]";
"# @stable ICU 64";
"UBLOCK_WANCHO = 300  # [1E2C0]";
"";
"# New blocks in Unicode 13.0";
"";
"# @stable ICU 66";
"UBLOCK_CHORASMIAN = 301  # [10FB0]";
"# @stable ICU 66";
"UBLOCK_CJK_UNIFIED_IDEOGRAPHS_EXTENSION_G = 302  # [30000]";
"# @stable ICU 66";
"UBLOCK_DIVES_AKURU = 303  # [11900]";
"# @stable ICU 66";
"UBLOCK_KHITAN_SMALL_SCRIPT = 304  # [18B00]";
"# @stable ICU 66";
"UBLOCK_LISU_SUPPLEMENT = 305  # [11FB0]";
"# @stable ICU 66";
"UBLOCK_SYMBOLS_FOR_LEGACY_COMPUTING = 306  # [1FB00]";
"# @stable ICU 66";
"UBLOCK_TANGUT_SUPPLEMENT = 307  # [18D00]";
"# @stable ICU 66";
"UBLOCK_YEZIDI = 308  # [10E80]";
"";
"blockNames = {";
"    UBLOCK_NO_BLOCK: ""No Block"",";
"    UBLOCK_BASIC_LATIN: ""ASCII"",";
"    UBLOCK_LATIN_1_SUPPLEMENT: ""Latin 1 Sup"",";
"    UBLOCK_LATIN_EXTENDED_A: ""Latin Ext A"",";
"    UBLOCK_LATIN_EXTENDED_B: ""Latin Ext B"",";
"    UBLOCK_IPA_EXTENSIONS: ""IPA Ext"",";
"    UBLOCK_SPACING_MODIFIER_LETTERS: ""Modifier Letters"",";
"    UBLOCK_COMBINING_DIACRITICAL_MARKS: ""Diacriticals"",";
"    UBLOCK_GREEK: ""Greek"",";
"    UBLOCK_CYRILLIC: ""Cyrillic"",";
"    UBLOCK_ARMENIAN: ""Armenian"",";
"    UBLOCK_HEBREW: ""Hebrew"",";
"    UBLOCK_ARABIC: ""Arabic"",";
"    UBLOCK_SYRIAC: ""Syriac"",";
"    UBLOCK_THAANA: ""Thaana"",";
"    UBLOCK_DEVANAGARI: ""Devanagari"",";
"    UBLOCK_BENGALI: ""Bengali"",";
"    UBLOCK_GURMUKHI: ""Gurmukhi"",";
"    UBLOCK_GUJARATI: ""Gujarati"",";
"    UBLOCK_ORIYA: ""Oriya"",";
"    UBLOCK_TAMIL: ""Tamil"",";
"    UBLOCK_TELUGU: ""Telugu"",";
"    UBLOCK_KANNADA: ""Kannada"",";
"    UBLOCK_MALAYALAM: ""Malayalam"",";
"    UBLOCK_SINHALA: ""Sinhala"",";
"    UBLOCK_THAI: ""Thai"",";
"    UBLOCK_LAO: ""Lao"",";
"    UBLOCK_TIBETAN: ""Tibetan"",";
"    UBLOCK_MYANMAR: ""Myanmar"",";
"    UBLOCK_GEORGIAN: ""Georgian"",";
"    UBLOCK_HANGUL_JAMO: ""Jamo"",";
"    UBLOCK_ETHIOPIC: ""Ethiopic"",";
"    UBLOCK_CHEROKEE: ""Cherokee"",";
"    UBLOCK_UNIFIED_CANADIAN_ABORIGINAL_SYLLABICS: ""UCAS"",";
"    UBLOCK_OGHAM: ""Ogham"",";
"    UBLOCK_RUNIC: ""Runic"",";
"    UBLOCK_KHMER: ""Khmer"",";
"    UBLOCK_MONGOLIAN: ""Mongolian"",";
"    UBLOCK_LATIN_EXTENDED_ADDITIONAL: ""Latin Ext Additional"",";
"    UBLOCK_GREEK_EXTENDED: ""Greek Ext"",";
"    UBLOCK_GENERAL_PUNCTUATION: ""Punctuation"",";
"    UBLOCK_SUPERSCRIPTS_AND_SUBSCRIPTS: ""Super And Sub"",";
"    UBLOCK_CURRENCY_SYMBOLS: ""Currency Symbols"",";
"    UBLOCK_COMBINING_MARKS_FOR_SYMBOLS: ""Diacriticals For Symbols"",";
"    UBLOCK_LETTERLIKE_SYMBOLS: ""Letterlike Symbols"",";
"    UBLOCK_NUMBER_FORMS: ""Number Forms"",";
"    UBLOCK_ARROWS: ""Arrows"",";
"    UBLOCK_MATHEMATICAL_OPERATORS: ""Math Operators"",";
"    UBLOCK_MISCELLANEOUS_TECHNICAL: ""Misc Technical"",";
"    UBLOCK_CONTROL_PICTURES: ""Control Pictures"",";
"    UBLOCK_OPTICAL_CHARACTER_RECOGNITION: ""OCR"",";
"    UBLOCK_ENCLOSED_ALPHANUMERICS: ""Enclosed Alphanum"",";
"    UBLOCK_BOX_DRAWING: ""Box Drawing"",";
"    UBLOCK_BLOCK_ELEMENTS: ""Block Elements"",";
"    UBLOCK_GEOMETRIC_SHAPES: ""Geometric Shapes"",";
"    UBLOCK_MISCELLANEOUS_SYMBOLS: ""Misc Symbols"",";
"    UBLOCK_DINGBATS: ""Dingbats"",";
"    UBLOCK_BRAILLE_PATTERNS: ""Braille"",";
"    UBLOCK_CJK_RADICALS_SUPPLEMENT: ""CJK Radicals Sup"",";
"    UBLOCK_KANGXI_RADICALS: ""Kangxi"",";
"    UBLOCK_IDEOGRAPHIC_DESCRIPTION_CHARACTERS: ""IDC"",";
"    UBLOCK_CJK_SYMBOLS_AND_PUNCTUATION: ""CJK Symbols"",";
"    UBLOCK_HIRAGANA: ""Hiragana"",";
"    UBLOCK_KATAKANA: ""Katakana"",";
"    UBLOCK_BOPOMOFO: ""Bopomofo"",";
"    UBLOCK_HANGUL_COMPATIBILITY_JAMO: ""Compat Jamo"",";
"    UBLOCK_KANBUN: ""Kanbun"",";
"    UBLOCK_BOPOMOFO_EXTENDED: ""Bopomofo Ext"",";
"    UBLOCK_ENCLOSED_CJK_LETTERS_AND_MONTHS: ""Enclosed CJK"",";
"    UBLOCK_CJK_COMPATIBILITY: ""CJK Compat"",";
"    UBLOCK_CJK_UNIFIED_IDEOGRAPHS_EXTENSION_A: ""CJK Ext A"",";
"    UBLOCK_CJK_UNIFIED_IDEOGRAPHS: ""CJK"",";
"    UBLOCK_YI_SYLLABLES: ""Yi Syllables"",";
"    UBLOCK_YI_RADICALS: ""Yi Radicals"",";
"    UBLOCK_HANGUL_SYLLABLES: ""Hangul"",";
"    UBLOCK_HIGH_SURROGATES: ""High Surrogates"",";
"    UBLOCK_HIGH_PRIVATE_USE_SURROGATES: ""High Private Use Surrogates"",";
"    UBLOCK_LOW_SURROGATES: ""Low Surrogates"",";
"    UBLOCK_PRIVATE_USE_AREA: ""Private Use Area"",";
"    UBLOCK_CJK_COMPATIBILITY_IDEOGRAPHS: ""CJK Compat Ideographs"",";
"    UBLOCK_ALPHABETIC_PRESENTATION_FORMS: ""Alphabetic PF"",";
"    UBLOCK_ARABIC_PRESENTATION_FORMS_A: ""Arabic PF A"",";
"    UBLOCK_COMBINING_HALF_MARKS: ""Half Marks"",";
"    UBLOCK_CJK_COMPATIBILITY_FORMS: ""CJK Compat Forms"",";
"    UBLOCK_SMALL_FORM_VARIANTS: ""Small Forms"",";
"    UBLOCK_ARABIC_PRESENTATION_FORMS_B: ""Arabic PF B"",";
"    UBLOCK_SPECIALS: ""Specials"",";
"    UBLOCK_HALFWIDTH_AND_FULLWIDTH_FORMS: ""Half And Full Forms"",";
"    UBLOCK_OLD_ITALIC: ""Old Italic"",";
"    UBLOCK_GOTHIC: ""Gothic"",";
"    UBLOCK_DESERET: ""Deseret"",";
"    UBLOCK_BYZANTINE_MUSICAL_SYMBOLS: ""Byzantine Music"",";
"    UBLOCK_MUSICAL_SYMBOLS: ""Music"",";
"    UBLOCK_MATHEMATICAL_ALPHANUMERIC_SYMBOLS: ""Math Alphanum"",";
"    UBLOCK_CJK_UNIFIED_IDEOGRAPHS_EXTENSION_B: ""CJK Ext B"",";
"    UBLOCK_CJK_COMPATIBILITY_IDEOGRAPHS_SUPPLEMENT: ""CJK Compat Ideographs Sup"",";
"    UBLOCK_TAGS: ""Tags"",";
"    UBLOCK_CYRILLIC_SUPPLEMENT: ""Cyrillic Sup"",";
"    UBLOCK_TAGALOG: ""Tagalog"",";
"    UBLOCK_HANUNOO: ""Hanunoo"",";
"    UBLOCK_BUHID: ""Buhid"",";
"    UBLOCK_TAGBANWA: ""Tagbanwa"",";
"    UBLOCK_MISCELLANEOUS_MATHEMATICAL_SYMBOLS_A: ""Misc Math Symbols A"",";
"    UBLOCK_SUPPLEMENTAL_ARROWS_A: ""Sup Arrows A"",";
"    UBLOCK_SUPPLEMENTAL_ARROWS_B: ""Sup Arrows B"",";
"    UBLOCK_MISCELLANEOUS_MATHEMATICAL_SYMBOLS_B: ""Misc Math Symbols B"",";
"    UBLOCK_SUPPLEMENTAL_MATHEMATICAL_OPERATORS: ""Sup Math Operators"",";
"    UBLOCK_KATAKANA_PHONETIC_EXTENSIONS: ""Katakana Ext"",";
"    UBLOCK_VARIATION_SELECTORS: ""VS"",";
"    UBLOCK_SUPPLEMENTARY_PRIVATE_USE_AREA_A: ""Supary Private Use Area A"",";
"    UBLOCK_SUPPLEMENTARY_PRIVATE_USE_AREA_B: ""Supary Private Use Area B"",";
"    UBLOCK_LIMBU: ""Limbu"",";
"    UBLOCK_TAI_LE: ""Tai Le"",";
"    UBLOCK_KHMER_SYMBOLS: ""Khmer Symbols"",";
"    UBLOCK_PHONETIC_EXTENSIONS: ""Phonetic Ext"",";
"    UBLOCK_MISCELLANEOUS_SYMBOLS_AND_ARROWS: ""Misc Arrows"",";
"    UBLOCK_YIJING_HEXAGRAM_SYMBOLS: ""Yijing"",";
"    UBLOCK_LINEAR_B_SYLLABARY: ""Linear B Syllabary"",";
"    UBLOCK_LINEAR_B_IDEOGRAMS: ""Linear B Ideograms"",";
"    UBLOCK_AEGEAN_NUMBERS: ""Aegean Numbers"",";
"    UBLOCK_UGARITIC: ""Ugaritic"",";
"    UBLOCK_SHAVIAN: ""Shavian"",";
"    UBLOCK_OSMANYA: ""Osmanya"",";
"    UBLOCK_CYPRIOT_SYLLABARY: ""Cypriot Syllabary"",";
"    UBLOCK_TAI_XUAN_JING_SYMBOLS: ""Tai Xuan Jing"",";
"    UBLOCK_VARIATION_SELECTORS_SUPPLEMENT: ""VS Sup"",";
"    UBLOCK_ANCIENT_GREEK_MUSICAL_NOTATION: ""Ancient Greek Music"",";
"    UBLOCK_ANCIENT_GREEK_NUMBERS: ""Ancient Greek Numbers"",";
"    UBLOCK_ARABIC_SUPPLEMENT: ""Arabic Sup"",";
"    UBLOCK_BUGINESE: ""Buginese"",";
"    UBLOCK_CJK_STROKES: ""CJK Strokes"",";
"    UBLOCK_COMBINING_DIACRITICAL_MARKS_SUPPLEMENT: ""Diacriticals Sup"",";
"    UBLOCK_COPTIC: ""Coptic"",";
"    UBLOCK_ETHIOPIC_EXTENDED: ""Ethiopic Ext"",";
"    UBLOCK_ETHIOPIC_SUPPLEMENT: ""Ethiopic Sup"",";
"    UBLOCK_GEORGIAN_SUPPLEMENT: ""Georgian Sup"",";
"    UBLOCK_GLAGOLITIC: ""Glagolitic"",";
"    UBLOCK_KHAROSHTHI: ""Kharoshthi"",";
"    UBLOCK_MODIFIER_TONE_LETTERS: ""Modifier Tone Letters"",";
"    UBLOCK_NEW_TAI_LUE: ""New Tai Lue"",";
"    UBLOCK_OLD_PERSIAN: ""Old Persian"",";
"    UBLOCK_PHONETIC_EXTENSIONS_SUPPLEMENT: ""Phonetic Ext Sup"",";
"    UBLOCK_SUPPLEMENTAL_PUNCTUATION: ""Sup Punctuation"",";
"    UBLOCK_SYLOTI_NAGRI: ""Syloti Nagri"",";
"    UBLOCK_TIFINAGH: ""Tifinagh"",";
"    UBLOCK_VERTICAL_FORMS: ""Vertical Forms"",";
"    UBLOCK_NKO: ""NKo"",";
"    UBLOCK_BALINESE: ""Balinese"",";
"    UBLOCK_LATIN_EXTENDED_C: ""Latin Ext C"",";
"    UBLOCK_LATIN_EXTENDED_D: ""Latin Ext D"",";
"    UBLOCK_PHAGS_PA: ""Phags Pa"",";
"    UBLOCK_PHOENICIAN: ""Phoenician"",";
"    UBLOCK_CUNEIFORM: ""Cuneiform"",";
"    UBLOCK_CUNEIFORM_NUMBERS_AND_PUNCTUATION: ""Cuneiform Numbers"",";
"    UBLOCK_COUNTING_ROD_NUMERALS: ""Counting Rod"",";
"    UBLOCK_SUNDANESE: ""Sundanese"",";
"    UBLOCK_LEPCHA: ""Lepcha"",";
"    UBLOCK_OL_CHIKI: ""Ol Chiki"",";
"    UBLOCK_CYRILLIC_EXTENDED_A: ""Cyrillic Ext A"",";
"    UBLOCK_VAI: ""Vai"",";
"    UBLOCK_CYRILLIC_EXTENDED_B: ""Cyrillic Ext B"",";
"    UBLOCK_SAURASHTRA: ""Saurashtra"",";
"    UBLOCK_KAYAH_LI: ""Kayah Li"",";
"    UBLOCK_REJANG: ""Rejang"",";
"    UBLOCK_CHAM: ""Cham"",";
"    UBLOCK_ANCIENT_SYMBOLS: ""Ancient Symbols"",";
"    UBLOCK_PHAISTOS_DISC: ""Phaistos"",";
"    UBLOCK_LYCIAN: ""Lycian"",";
"    UBLOCK_CARIAN: ""Carian"",";
"    UBLOCK_LYDIAN: ""Lydian"",";
"    UBLOCK_MAHJONG_TILES: ""Mahjong"",";
"    UBLOCK_DOMINO_TILES: ""Domino"",";
"    UBLOCK_SAMARITAN: ""Samaritan"",";
"    UBLOCK_UNIFIED_CANADIAN_ABORIGINAL_SYLLABICS_EXTENDED: ""UCAS Ext"",";
"    UBLOCK_TAI_THAM: ""Tai Tham"",";
"    UBLOCK_VEDIC_EXTENSIONS: ""Vedic Ext"",";
"    UBLOCK_LISU: ""Lisu"",";
"    UBLOCK_BAMUM: ""Bamum"",";
"    UBLOCK_COMMON_INDIC_NUMBER_FORMS: ""Indic Number Forms"",";
"    UBLOCK_DEVANAGARI_EXTENDED: ""Devanagari Ext"",";
"    UBLOCK_HANGUL_JAMO_EXTENDED_A: ""Jamo Ext A"",";
"    UBLOCK_JAVANESE: ""Javanese"",";
"    UBLOCK_MYANMAR_EXTENDED_A: ""Myanmar Ext A"",";
"    UBLOCK_TAI_VIET: ""Tai Viet"",";
"    UBLOCK_MEETEI_MAYEK: ""Meetei Mayek"",";
"    UBLOCK_HANGUL_JAMO_EXTENDED_B: ""Jamo Ext B"",";
"    UBLOCK_IMPERIAL_ARAMAIC: ""Imperial Aramaic"",";
"    UBLOCK_OLD_SOUTH_ARABIAN: ""Old South Arabian"",";
"    UBLOCK_AVESTAN: ""Avestan"",";
"    UBLOCK_INSCRIPTIONAL_PARTHIAN: ""Inscriptional Parthian"",";
"    UBLOCK_INSCRIPTIONAL_PAHLAVI: ""Inscriptional Pahlavi"",";
"    UBLOCK_OLD_TURKIC: ""Old Turkic"",";
"    UBLOCK_RUMI_NUMERAL_SYMBOLS: ""Rumi"",";
"    UBLOCK_KAITHI: ""Kaithi"",";
"    UBLOCK_EGYPTIAN_HIEROGLYPHS: ""Egyptian Hieroglyphs"",";
"    UBLOCK_ENCLOSED_ALPHANUMERIC_SUPPLEMENT: ""Enclosed Alphanum Sup"",";
"    UBLOCK_ENCLOSED_IDEOGRAPHIC_SUPPLEMENT: ""Enclosed Ideographic Sup"",";
"    UBLOCK_CJK_UNIFIED_IDEOGRAPHS_EXTENSION_C: ""CJK Ext C"",";
"    UBLOCK_MANDAIC: ""Mandaic"",";
"    UBLOCK_BATAK: ""Batak"",";
"    UBLOCK_ETHIOPIC_EXTENDED_A: ""Ethiopic Ext A"",";
"    UBLOCK_BRAHMI: ""Brahmi"",";
"    UBLOCK_BAMUM_SUPPLEMENT: ""Bamum Sup"",";
"    UBLOCK_KANA_SUPPLEMENT: ""Kana Sup"",";
"    UBLOCK_PLAYING_CARDS: ""Playing Cards"",";
"    UBLOCK_MISCELLANEOUS_SYMBOLS_AND_PICTOGRAPHS: ""Misc Pictographs"",";
"    UBLOCK_EMOTICONS: ""Emoticons"",";
"    UBLOCK_TRANSPORT_AND_MAP_SYMBOLS: ""Transport And Map"",";
"    UBLOCK_ALCHEMICAL_SYMBOLS: ""Alchemical"",";
"    UBLOCK_CJK_UNIFIED_IDEOGRAPHS_EXTENSION_D: ""CJK Ext D"",";
"    UBLOCK_ARABIC_EXTENDED_A: ""Arabic Ext A"",";
"    UBLOCK_ARABIC_MATHEMATICAL_ALPHABETIC_SYMBOLS: ""Arabic Math"",";
"    UBLOCK_CHAKMA: ""Chakma"",";
"    UBLOCK_MEETEI_MAYEK_EXTENSIONS: ""Meetei Mayek Ext"",";
"    UBLOCK_MEROITIC_CURSIVE: ""Meroitic Cursive"",";
"    UBLOCK_MEROITIC_HIEROGLYPHS: ""Meroitic Hieroglyphs"",";
"    UBLOCK_MIAO: ""Miao"",";
"    UBLOCK_SHARADA: ""Sharada"",";
"    UBLOCK_SORA_SOMPENG: ""Sora Sompeng"",";
"    UBLOCK_SUNDANESE_SUPPLEMENT: ""Sundanese Sup"",";
"    UBLOCK_TAKRI: ""Takri"",";
"    UBLOCK_BASSA_VAH: ""Bassa Vah"",";
"    UBLOCK_CAUCASIAN_ALBANIAN: ""Caucasian Albanian"",";
"    UBLOCK_COPTIC_EPACT_NUMBERS: ""Coptic Epact Numbers"",";
"    UBLOCK_COMBINING_DIACRITICAL_MARKS_EXTENDED: ""Diacriticals Ext"",";
"    UBLOCK_DUPLOYAN: ""Duployan"",";
"    UBLOCK_ELBASAN: ""Elbasan"",";
"    UBLOCK_GEOMETRIC_SHAPES_EXTENDED: ""Geometric Shapes Ext"",";
"    UBLOCK_GRANTHA: ""Grantha"",";
"    UBLOCK_KHOJKI: ""Khojki"",";
"    UBLOCK_KHUDAWADI: ""Khudawadi"",";
"    UBLOCK_LATIN_EXTENDED_E: ""Latin Ext E"",";
"    UBLOCK_LINEAR_A: ""Linear A"",";
"    UBLOCK_MAHAJANI: ""Mahajani"",";
"    UBLOCK_MANICHAEAN: ""Manichaean"",";
"    UBLOCK_MENDE_KIKAKUI: ""Mende Kikakui"",";
"    UBLOCK_MODI: ""Modi"",";
"    UBLOCK_MRO: ""Mro"",";
"    UBLOCK_MYANMAR_EXTENDED_B: ""Myanmar Ext B"",";
"    UBLOCK_NABATAEAN: ""Nabataean"",";
"    UBLOCK_OLD_NORTH_ARABIAN: ""Old North Arabian"",";
"    UBLOCK_OLD_PERMIC: ""Old Permic"",";
"    UBLOCK_ORNAMENTAL_DINGBATS: ""Ornamental Dingbats"",";
"    UBLOCK_PAHAWH_HMONG: ""Pahawh Hmong"",";
"    UBLOCK_PALMYRENE: ""Palmyrene"",";
"    UBLOCK_PAU_CIN_HAU: ""Pau Cin Hau"",";
"    UBLOCK_PSALTER_PAHLAVI: ""Psalter Pahlavi"",";
"    UBLOCK_SHORTHAND_FORMAT_CONTROLS: ""Shorthand Format Controls"",";
"    UBLOCK_SIDDHAM: ""Siddham"",";
"    UBLOCK_SINHALA_ARCHAIC_NUMBERS: ""Sinhala Archaic Numbers"",";
"    UBLOCK_SUPPLEMENTAL_ARROWS_C: ""Sup Arrows C"",";
"    UBLOCK_TIRHUTA: ""Tirhuta"",";
"    UBLOCK_WARANG_CITI: ""Warang Citi"",";
"    UBLOCK_AHOM: ""Ahom"",";
"    UBLOCK_ANATOLIAN_HIEROGLYPHS: ""Anatolian Hieroglyphs"",";
"    UBLOCK_CHEROKEE_SUPPLEMENT: ""Cherokee Sup"",";
"    UBLOCK_CJK_UNIFIED_IDEOGRAPHS_EXTENSION_E: ""CJK Ext E"",";
"    UBLOCK_EARLY_DYNASTIC_CUNEIFORM: ""Early Dynastic Cuneiform"",";
"    UBLOCK_HATRAN: ""Hatran"",";
"    UBLOCK_MULTANI: ""Multani"",";
"    UBLOCK_OLD_HUNGARIAN: ""Old Hungarian"",";
"    UBLOCK_SUPPLEMENTAL_SYMBOLS_AND_PICTOGRAPHS: ""Sup Symbols And Pictographs"",";
"    UBLOCK_SUTTON_SIGNWRITING: ""Sutton SignWriting"",";
"    UBLOCK_ADLAM: ""Adlam"",";
"    UBLOCK_BHAIKSUKI: ""Bhaiksuki"",";
"    UBLOCK_CYRILLIC_EXTENDED_C: ""Cyrillic Ext C"",";
"    UBLOCK_GLAGOLITIC_SUPPLEMENT: ""Glagolitic Sup"",";
"    UBLOCK_IDEOGRAPHIC_SYMBOLS_AND_PUNCTUATION: ""Ideographic Symbols"",";
"    UBLOCK_MARCHEN: ""Marchen"",";
"    UBLOCK_MONGOLIAN_SUPPLEMENT: ""Mongolian Sup"",";
"    UBLOCK_NEWA: ""Newa"",";
"    UBLOCK_OSAGE: ""Osage"",";
"    UBLOCK_TANGUT: ""Tangut"",";
"    UBLOCK_TANGUT_COMPONENTS: ""Tangut Components"",";
"    UBLOCK_CJK_UNIFIED_IDEOGRAPHS_EXTENSION_F: ""CJK Ext F"",";
"    UBLOCK_KANA_EXTENDED_A: ""Kana Ext A"",";
"    UBLOCK_MASARAM_GONDI: ""Masaram Gondi"",";
"    UBLOCK_NUSHU: ""Nushu"",";
"    UBLOCK_SOYOMBO: ""Soyombo"",";
"    UBLOCK_SYRIAC_SUPPLEMENT: ""Syriac Sup"",";
"    UBLOCK_ZANABAZAR_SQUARE: ""Zanabazar Square"",";
"    UBLOCK_CHESS_SYMBOLS: ""Chess Symbols"",";
"    UBLOCK_DOGRA: ""Dogra"",";
"    UBLOCK_GEORGIAN_EXTENDED: ""Georgian Ext"",";
"    UBLOCK_GUNJALA_GONDI: ""Gunjala Gondi"",";
"    UBLOCK_HANIFI_ROHINGYA: ""Hanifi Rohingya"",";
"    UBLOCK_INDIC_SIYAQ_NUMBERS: ""Indic Siyaq Numbers"",";
"    UBLOCK_MAKASAR: ""Makasar"",";
"    UBLOCK_MAYAN_NUMERALS: ""Mayan Numerals"",";
"    UBLOCK_MEDEFAIDRIN: ""Medefaidrin"",";
"    UBLOCK_OLD_SOGDIAN: ""Old Sogdian"",";
"    UBLOCK_SOGDIAN: ""Sogdian"",";
"    UBLOCK_EGYPTIAN_HIEROGLYPH_FORMAT_CONTROLS: ""Egyptian Hieroglyph Format Controls"",";
"    UBLOCK_ELYMAIC: ""Elymaic"",";
"    UBLOCK_NANDINAGARI: ""Nandinagari"",";
"    UBLOCK_NYIAKENG_PUACHUE_HMONG: ""Nyiakeng Puachue Hmong"",";
"    UBLOCK_OTTOMAN_SIYAQ_NUMBERS: ""Ottoman Siyaq Numbers"",";
"    UBLOCK_SMALL_KANA_EXTENSION: ""Small Kana Ext"",";
"    UBLOCK_SYMBOLS_AND_PICTOGRAPHS_EXTENDED_A: ""Symbols And Pictographs Ext A"",";
"    UBLOCK_TAMIL_SUPPLEMENT: ""Tamil Sup"",";
"    UBLOCK_WANCHO: ""Wancho"",";
"    UBLOCK_CHORASMIAN: ""Chorasmian"",";
"    UBLOCK_CJK_UNIFIED_IDEOGRAPHS_EXTENSION_G: ""CJK Ext G"",";
"    UBLOCK_DIVES_AKURU: ""Dives Akuru"",";
"    UBLOCK_KHITAN_SMALL_SCRIPT: ""Khitan Small Script"",";
"    UBLOCK_LISU_SUPPLEMENT: ""Lisu Sup"",";
"    UBLOCK_SYMBOLS_FOR_LEGACY_COMPUTING: ""Symbols For Legacy Computing"",";
"    UBLOCK_TANGUT_SUPPLEMENT: ""Tangut Sup"",";
"    UBLOCK_YEZIDI: ""Yezidi"",";
"}";
"";
""].

(** Boundaries.py:1-263 *)
Definition Boundaries_lines : list string := [
"""""""\";
"Based on types from uchar.h in ICU";
"";
"Created on May 6, 2020";
"";
"@author Eric Mader";
"""""""";
"";
"# Grapheme cluster break";
"GCB_OTHER = 0            # [XX]";
"GCB_CONTROL = 1          # [CN]";
"GCB_CR = 2               # [CR]";
"GCB_EXTEND = 3           # [EX]";
"GCB_L = 4                # [L]";
"GCB_LF = 5               # [LF]";
"GCB_LV = 6               # [LV]";
"GCB_LVT = 7              # [LVT]";
"GCB_T = 8                # [T]";
"GCB_V = 9                # [V]";
"# @stable ICU 4.0";
"GCB_SPACING_MARK = 10    # [SM] from here on: new in Unicode 5.1/ICU 4.0";
"# @stable ICU 4.0";
"GCB_PREPEND = 11         # [PP]";
"# @stable ICU 50";
"GCB_REGIONAL_INDICATOR = 12  # [RI] new in Unicode 6.2/ICU 50";
"# @stable ICU 58";
"GCB_E_BASE = 13          # [EB] from here on: new in Unicode 9.0/ICU 58";
"# @stable ICU 58";
"GCB_E_BASE_GAZ = 14      # [EBG]";
"# @stable ICU 58";
"GCB_E_MODIFIER = 15      # [EM]";
"# @stable ICU 58";
"GCB_GLUE_AFTER_ZWJ = 16  # [GAZ]";
"# @stable ICU 58";
"GCB_ZWJ = 17             # [ZWJ]";
"";
"# Word break";
"WB_OTHER = 0             # [XX]";
"WB_ALETTER = 1           # [LE]";
"WB_FORMAT = 2            # [FO]";
"WB_KATAKANA = 3          # [KA]";
"WB_MIDLETTER = 4         # [ML]";
"WB_MIDNUM = 5            # [MN]";
"WB_NUMERIC = 6           # [NU]";
"WB_EXTENDNUMLET = 7      # [EX]";
"# @stable ICU 4.0";
"WB_CR = 8                # [CR] from here on: new in Unicode 5.1/ICU 4.0";
"# @stable ICU 4.0";
"WB_EXTEND = 9            # [Extend]";
"# @stable ICU 4.0";
"WB_LF = 10               # [LF]";
"# @stable ICU 4.0";
"WB_MIDNUMLET =11         # [MB]";
"# @stable ICU 4.0";
"WB_NEWLINE =12           # [NL]";
"# @stable ICU 50";
"WB_REGIONAL_INDICATOR = 13   # [RI] new in Unicode 6.2/ICU 50";
"# @stable ICU 52";
"WB_HEBREW_LETTER = 14    # [HL] from here on: new in Unicode 6.3/ICU 52";
"# @stable ICU 52";
"WB_SINGLE_QUOTE = 15     # [SQ]";
"# @stable ICU 52";
"WB_DOUBLE_QUOTE = 16     # [DQ]";
"# @stable ICU 58";
"WB_E_BASE = 17           # [EB] from here on: new in Unicode 9.0/ICU 58";
"# @stable ICU 58";
"WB_E_BASE_GAZ = 18       # [EBG]";
"# @stable ICU 58";
"WB_E_MODIFIER = 19       # [EM]";
"# @stable ICU 58";
"WB_GLUE_AFTER_ZWJ = 20   # [GAZ]";
"# @stable ICU 58";
"WB_ZWJ = 21              # [ZWJ]";
"# @stable ICU 62";
"WB_WSEGSPACE = 22        # [WSEGSPACE]";
"";
"# Sentence break";
"SB_OTHER = 0             # [XX]";
"SB_ATERM = 1             # [AT]";
"SB_CLOSE = 2             # [CL]";
"SB_FORMAT = 3            # [FO]";
"SB_LOWER = 4             # [LO]";
"SB_NUMERIC = 5           # [NU]";
"SB_OLETTER = 6           # [LE]";
"SB_SEP = 7               # [SE]";
"SB_SP = 8                # [SP]";
"SB_STERM = 9             # [ST]";
"SB_UPPER = 10            # [UP]";
"SB_CR = 11               # [CR] from here on: new in Unicode 5.1/ICU 4.0";
"SB_EXTEND = 12           # [EX]";
"SB_LF = 13               # [LF]";
"SB_SCONTINUE = 14        # [SC]";
"";
"# Line break";
"LB_UNKNOWN = 0           # [XX]";
"LB_AMBIGUOUS = 1         # [AI]";
"LB_ALPHABETIC = 2        # [AL]";
"LB_BREAK_BOTH = 3        # [B2]";
"LB_BREAK_AFTER = 4       # [BA]";
"LB_BREAK_BEFORE = 5      # [BB]";
"LB_MANDATORY_BREAK = 6   # [BK]";
"LB_CONTINGENT_BREAK = 7  # [CB]";
"LB_CLOSE_PUNCTUATION = 8 # [CL]";
"LB_COMBINING_MARK = 9    # [CM]";
"LB_CARRIAGE_RETURN = 10   # [CR]";
"LB_EXCLAMATION = 11       # [EX]";
"LB_GLUE = 12              # [GL]";
"LB_HYPHEN = 13            # [HY]";
"LB_IDEOGRAPHIC = 14       # [ID]";
"LB_INSEPARABLE = 15       # [IN]";
"LB_INFIX_NUMERIC = 16     # [IS]";
"LB_LINE_FEED = 17         # [LF]";
"LB_NONSTARTER = 18        # [NS]";
"LB_NUMERIC = 19           # [NU]";
"LB_OPEN_PUNCTUATION = 20  # [OP]";
"LB_POSTFIX_NUMERIC = 21   # [PO]";
"LB_PREFIX_NUMERIC = 22    # [PR]";
"LB_QUOTATION = 23         # [QU]";
"LB_COMPLEX_CONTEXT = 24   # [SA]";
"LB_SURROGATE = 25         # [SG]";
"LB_SPACE = 26             # [SP]";
"LB_BREAK_SYMBOLS = 27     # [SY]";
"LB_ZWSPACE = 28           # [ZW]";
"# @stable ICU 2.6";
"LB_NEXT_LINE = 29         # [NL] #  from here on: new in Unicode 4/ICU 2.6";
"# @stable ICU 2.6";
"LB_WORD_JOINER = 30       # [WJ]";
"# @stable ICU 3.4";
"LB_H2 = 31                # [H2] #  from here on: new in Unicode 4.1/ICU 3.4";
"# @stable ICU 3.4";
"LB_H3 = 32                # [H3]";
"# @stable ICU 3.4";
"LB_JL = 33                # [JL]";
"# @stable ICU 3.4";
"LB_JT = 34                # [JT]";
"# @stable ICU 3.4";
"LB_JV = 35                # [JV]";
"# @stable ICU 4.4";
"LB_CLOSE_PARENTHESIS = 36 # [CP] new in Unicode 5.2/ICU 4.4";
"# @stable ICU 49";
"LB_CONDITIONAL_JAPANESE_STARTER = 37 # [CJ]  new in Unicode 6.1/ICU 49";
"# @stable ICU 49";
"LB_HEBREW_LETTER = 38     # [HL] new in Unicode 6.1/ICU 49";
"# @stable ICU 50";
"LB_REGIONAL_INDICATOR = 39# [RI] new in Unicode 6.2/ICU 50";
"# @stable ICU 58";
"LB_E_BASE = 40            # [EB] from here on: new in Unicode 9.0/ICU 58";
"# @stable ICU 58";
"LB_E_MODIFIER = 41        # [EM]";
"# @stable ICU 58";
"LB_ZWJ = 42               # [ZWJ]";
"";
"graphemeClusterBreakNames = {";
"    GCB_OTHER: ""XX"",";
"    GCB_CONTROL: ""CN"",";
"    GCB_CR: ""CR"",";
"    GCB_EXTEND: ""EX"",";
"    GCB_L: ""L"",";
"    GCB_LF: ""LF"",";
"    GCB_LV: ""LV"",";
"    GCB_LVT: ""LVT"",";
"    GCB_T: ""T"",";
"    GCB_V: ""V"",";
"    GCB_SPACING_MARK: ""SM"",";
"    GCB_PREPEND: ""PP"",";
"    GCB_REGIONAL_INDICATOR: ""RI"",";
"    GCB_E_BASE: ""EB"",";
"    GCB_E_BASE_GAZ: ""EBG"",";
"    GCB_E_MODIFIER: ""EM"",";
"    GCB_GLUE_AFTER_ZWJ: ""GAZ"",";
"    GCB_ZWJ: ""ZWJ""";
"}";
"";
"wordBreakNames = {";
"    WB_OTHER: ""XX"",";
"    WB_ALETTER: ""LE"",";
"    WB_FORMAT: ""FO"",";
"    WB_KATAKANA: ""KA"",";
"    WB_MIDLETTER: ""ML"",";
"    WB_MIDNUM: ""MN"",";
"    WB_NUMERIC: ""NU"",";
"    WB_EXTENDNUMLET: ""EX"",";
"    WB_CR: ""CR"",";
"    WB_EXTEND: ""Extend"",";
"    WB_LF: ""LF"",";
"    WB_MIDNUMLET: ""MB"",";
"    WB_NEWLINE: ""NL"",";
"    WB_REGIONAL_INDICATOR: ""RI"",";
"    WB_HEBREW_LETTER: ""HL"",";
"    WB_SINGLE_QUOTE: ""SQ"",";
"    WB_DOUBLE_QUOTE: ""DQ"",";
"    WB_E_BASE: ""EB"",";
"    WB_E_BASE_GAZ: ""EBG"",";
"    WB_E_MODIFIER: ""EM"",";
"    WB_GLUE_AFTER_ZWJ: ""GAZ"",";
"    WB_ZWJ: ""ZWJ"",";
"    WB_WSEGSPACE: ""WSEGSPACE""";
"}";
"";
"sentenceBreakNames = {";
"    SB_OTHER: ""XX"",";
"    SB_ATERM: ""AT"",";
"    SB_CLOSE: ""CL"",";
"    SB_FORMAT: ""FO"",";
"    SB_LOWER: ""LO"",";
"    SB_NUMERIC: ""NU"",";
"    SB_OLETTER: ""LE"",";
"    SB_SEP: ""SE"",";
"    SB_SP: ""SP"",";
"    SB_STERM: ""ST"",";
"    SB_UPPER: ""UP"",";
"    SB_CR: ""CR"",";
"    SB_EXTEND: ""EX"",";
"    SB_LF: ""LF"",";
"    SB_SCONTINUE: ""SC""";
"}";
"";
"lineBreakNames = {";
"    LB_UNKNOWN: ""XX"",";
"    LB_AMBIGUOUS: ""AI"",";
"    LB_ALPHABETIC: ""AL"",";
"    LB_BREAK_BOTH: ""B2"",";
"    LB_BREAK_AFTER: ""BA"",";
"    LB_BREAK_BEFORE: ""BB"",";
"    LB_MANDATORY_BREAK: ""BK"",";
"    LB_CONTINGENT_BREAK: ""CB"",";
"    LB_CLOSE_PUNCTUATION: ""CL"",";
"    LB_COMBINING_MARK: ""CM"",";
"    LB_CARRIAGE_RETURN: ""CR"",";
"    LB_EXCLAMATION: ""EX"",";
"    LB_GLUE: ""GL"",";
"    LB_HYPHEN: ""HY"",";
"    LB_IDEOGRAPHIC: ""ID"",";
"    LB_INSEPARABLE: ""IN"",";
"    LB_INFIX_NUMERIC: ""IS"",";
"    LB_LINE_FEED: ""LF"",";
"    LB_NONSTARTER: ""NS"",";
"    LB_NUMERIC: ""NU"",";
"    LB_OPEN_PUNCTUATION: ""OP"",";
"    LB_POSTFIX_NUMERIC: ""PO"",";
"    LB_PREFIX_NUMERIC: ""PR"",";
"    LB_QUOTATION: ""QU"",";
"    LB_COMPLEX_CONTEXT: ""SA"",";
"    LB_SURROGATE: ""SG"",";
"    LB_SPACE: ""SP"",";
"    LB_BREAK_SYMBOLS: ""SY"",";
"    LB_ZWSPACE: ""ZW"",";
"    LB_NEXT_LINE: ""NL"",";
"    LB_WORD_JOINER: ""WJ"",";
"    LB_H2: ""H2"",";
"    LB_H3: ""H3"",";
"    LB_JL: ""JL"",";
"    LB_JT: ""JT"",";
"    LB_JV: ""JV"",";
"    LB_CLOSE_PARENTHESIS: ""CP"",";
"    LB_CONDITIONAL_JAPANESE_STARTER: ""CJ"",";
"    LB_HEBREW_LETTER: ""HL"",";
"    LB_REGIONAL_INDICATOR: ""RI"",";
"    LB_E_BASE: ""EB"",";
"    LB_E_MODIFIER: ""EM"",";
"    LB_ZWJ: ""ZWJ""";
"}";
""].

(** CharDirection.py:1-103 *)
Definition CharDirection_lines : list string := [
"""""""\";
"Based on UCharDirection from uchar.h in ICU";
"";
"Created on May 1, 2020";
"";
"@author Eric Mader";
"""""""";
"";
"#  L @ stable ICU 2.0 * /";
"U_LEFT_TO_RIGHT = 0";
"#  R @ stable ICU 2.0 * /";
"U_RIGHT_TO_LEFT = 1";
"#  EN @ stable ICU 2.0 * /";
"U_EUROPEAN_NUMBER = 2";
"#  ES @ stable ICU 2.0 * /";
"U_EUROPEAN_NUMBER_SEPARATOR = 3";
"#  ET @ stable ICU 2.0 * /";
"U_EUROPEAN_NUMBER_TERMINATOR = 4";
"#  AN @ stable ICU 2.0 * /";
"U_ARABIC_NUMBER = 5";
"#  CS @ stable ICU 2.0 * /";
"U_COMMON_NUMBER_SEPARATOR = 6";
"#  B @ stable ICU 2.0 * /";
"U_BLOCK_SEPARATOR = 7";
"#  S @ stable ICU 2.0 * /";
"U_SEGMENT_SEPARATOR = 8";
"#  WS @ stable ICU 2.0 * /";
"U_WHITE_SPACE_NEUTRAL = 9";
"#  ON @ stable ICU 2.0 * /";
"U_OTHER_NEUTRAL = 10";
"#  LRE @ stable ICU 2.0 * /";
"U_LEFT_TO_RIGHT_EMBEDDING = 11";
"#  LRO @ stable ICU 2.0 * /";
"U_LEFT_TO_RIGHT_OVERRIDE = 12";
"#  AL @ stable ICU 2.0 * /";
"U_RIGHT_TO_LEFT_ARABIC = 13";
"#  RLE @ stable ICU 2.0 * /";
"U_RIGHT_TO_LEFT_EMBEDDING = 14";
"#  RLO @ stable ICU 2.0 * /";
"U_RIGHT_TO_LEFT_OVERRIDE = 15";
"#  PDF @ stable ICU 2.0 * /";
"U_POP_DIRECTIONAL_FORMAT = 16";
"#  NSM @ stable ICU 2.0 * /";
"U_DIR_NON_SPACING_MARK = 17";
"#  BN @ stable ICU 2.0 * /";
"U_BOUNDARY_NEUTRAL = 18";
"#  FSI @ stable ICU 52 * /";
"U_FIRST_STRONG_ISOLATE = 19";
"#  LRI @ stable ICU 52 * /";
"U_LEFT_TO_RIGHT_ISOLATE = 20";
"#  RLI @ stable ICU 52 * /";
"U_RIGHT_TO_LEFT_ISOLATE = 21";
"#  PDI @ stable ICU 52 * /";
"U_POP_DIRECTIONAL_ISOLATE = 22";
"";
"bidiClassNames = {";
"    #  L @ stable ICU 2.0 * /";
"    U_LEFT_TO_RIGHT: 'L',";
"    #  R @ stable ICU 2.0 * /";
"    U_RIGHT_TO_LEFT: 'R',";
"    #  EN @ stable ICU 2.0 * /";
"    U_EUROPEAN_NUMBER: 'EN',";
"    #  ES @ stable ICU 2.0 * /";
"    U_EUROPEAN_NUMBER_SEPARATOR: 'ES',";
"    #  ET @ stable ICU 2.0 * /";
"    U_EUROPEAN_NUMBER_TERMINATOR: 'ET',";
"    #  AN @ stable ICU 2.0 * /";
"    U_ARABIC_NUMBER: 'AN',";
"    #  CS @ stable ICU 2.0 * /";
"    U_COMMON_NUMBER_SEPARATOR: 'CS',";
"    #  B @ stable ICU 2.0 * /";
"    U_BLOCK_SEPARATOR: 'B',";
"    #  S @ stable ICU 2.0 * /";
"    U_SEGMENT_SEPARATOR: 'S',";
"    #  WS @ stable ICU 2.0 * /";
"    U_WHITE_SPACE_NEUTRAL: 'WS',";
"    #  ON @ stable ICU 2.0 * /";
"    U_OTHER_NEUTRAL: 'ON',";
"    #  LRE @ stable ICU 2.0 * /";
"    U_LEFT_TO_RIGHT_EMBEDDING: 'LRE',";
"    #  LRO @ stable ICU 2.0 * /";
"    U_LEFT_TO_RIGHT_OVERRIDE: 'LRO',";
"    #  AL @ stable ICU 2.0 * /";
"    U_RIGHT_TO_LEFT_ARABIC: 'AL',";
"    #  RLE @ stable ICU 2.0 * /";
"    U_RIGHT_TO_LEFT_EMBEDDING: 'RLE',";
"    #  RLO @ stable ICU 2.0 * /";
"    U_RIGHT_TO_LEFT_OVERRIDE: 'RLO',";
"    #  PDF @ stable ICU 2.0 * /";
"    U_POP_DIRECTIONAL_FORMAT: 'PDF',";
"    #  NSM @ stable ICU 2.0 * /";
"    U_DIR_NON_SPACING_MARK: 'NSM',";
"    #  BN @ stable ICU 2.0 * /";
"    U_BOUNDARY_NEUTRAL: 'BN',";
"    #  FSI @ stable ICU 52 * /";
"    U_FIRST_STRONG_ISOLATE: 'FSI',";
"    #  LRI @ stable ICU 52 * /";
"    U_LEFT_TO_RIGHT_ISOLATE: 'LRI',";
"    #  RLI @ stable ICU 52 * /";
"    U_RIGHT_TO_LEFT_ISOLATE: 'RLI',";
"    #  PDI @ stable ICU 52 * /";
"    U_POP_DIRECTIONAL_ISOLATE: 'PDI'";
"}"].

(** Characters.py:1-40 *)
Definition Characters_lines : list string := [
"""""""\";
"Constants for some useful code points. Taken from uprops.h in ICU";
"";
"Created on May 5, 2020";
"";
"@author Eric Mader";
"""""""";
"";
"CH_TAB = 0x0009";
"CH_LF = 0x000a";
"CH_FF = 0x000c";
"CH_CR = 0x000d";
"CH_SPACE = 0x0020";
"CH_U_A = 0x0041";
"CH_U_F = 0x0046";
"CH_U_Z = 0x005a";
"CH_U_a = 0x0061";
"CH_U_f = 0x0066";
"CH_U_z = 0x007a";
"CH_DEL = 0x007f";
"CH_NL = 0x0085";
"CH_NBSP = 0x00a0";
"CH_CGJ = 0x034f";
"CH_FIGURESP = 0x2007";
"CH_HAIRSP = 0x200a";
"CH_ZWNJ = 0x200c";
"CH_ZWJ = 0x200d";
"CH_RLM = 0x200f";
"CH_NNBSP = 0x202f";
"CH_WJ = 0x2060";
"CH_INHSWAP = 0x206a";
"CH_NOMDIG = 0x206f";
"CH_U_FW_A = 0xff21";
"CH_U_FW_F = 0xff26";
"CH_U_FW_Z = 0xff3a";
"CH_U_FW_a = 0xff41";
"CH_U_FW_f = 0xff46";
"CH_U_FW_z = 0xff5a";
"ZWNBSP  =0xfeff";
""].

(** DecompositionType.py:1-48 *)
Definition DecompositionType_lines : list string := [
"""""""\";
"Based on UDecomompositionType from uchar.h in ICU";
"";
"Created on May 7, 2020";
"";
"@author Eric Mader";
"""""""";
"";
"U_DT_NONE = 0              # [none]";
"U_DT_CANONICAL = 1         # [can]";
"U_DT_COMPAT = 2            # [com]";
"U_DT_CIRCLE = 3            # [enc]";
"U_DT_FINAL = 4             # [fin]";
"U_DT_FONT = 5              # [font]";
"U_DT_FRACTION = 6          # [fra]";
"U_DT_INITIAL = 7           # [init]";
"U_DT_ISOLATED = 8          # [iso]";
"U_DT_MEDIAL = 9            # [med]";
"U_DT_NARROW = 10            # [nar]";
"U_DT_NOBREAK = 11           # [nb]";
"U_DT_SMALL = 12             # [sml]";
"U_DT_SQUARE = 13            # [sqr]";
"U_DT_SUB = 14               # [sub]";
"U_DT_SUPER = 15             # [sup]";
"U_DT_VERTICAL = 16          # [vert]";
"U_DT_WIDE = 17              # [wide]";
"";
"decompositionTypeNames = {";
"    U_DT_NONE: ""none"",";
"    U_DT_CANONICAL: ""can"",";
"    U_DT_COMPAT: ""com"",";
"    U_DT_CIRCLE: ""enc"",";
"    U_DT_FINAL: ""fin"",";
"    U_DT_FONT: ""font"",";
"    U_DT_FRACTION: ""fra"",";
"    U_DT_INITIAL: ""init"",";
"    U_DT_ISOLATED: ""iso"",";
"    U_DT_MEDIAL: ""med"",";
"    U_DT_NARROW: ""nar"",";
"    U_DT_NOBREAK: ""nb"",";
"    U_DT_SMALL: ""sml"",";
"    U_DT_SQUARE: ""sqr"",";
"    U_DT_SUB: ""sub"",";
"    U_DT_SUPER: ""sup"",";
"    U_DT_VERTICAL: ""vert"",";
"    U_DT_WIDE: ""wide""";
"}";
""].

(** EastAsianWidth.py:1-24 *)
Definition EastAsianWidth_lines : list string := [
"""""""\";
"Based on UEastAsianWidth from uchar.h in ICU";
"";
"Created on May 4, 2020";
"";
"@author Eric Mader";
"""""""";
"";
"U_EA_NEUTRAL = 0  # N";
"U_EA_AMBIGUOUS = 1  # A";
"U_EA_HALFWIDTH = 2  # H";
"U_EA_FULLWIDTH = 3  # F";
"U_EA_NARROW = 4  # Na";
"U_EA_WIDE = 5  # W";
"";
"eastAsianWidthNames = {";
"    U_EA_NEUTRAL: ""N"",";
"    U_EA_AMBIGUOUS: ""A"",";
"    U_EA_HALFWIDTH: ""H"",";
"    U_EA_FULLWIDTH: ""F"",";
"    U_EA_NARROW: ""Na"",";
"    U_EA_WIDE: ""W""";
"}";
""].

(** GeneralCategories.py:1-207 *)
Definition GeneralCategories_lines : list string := [
"""""""\";
"Based on UCharCategory from uchar.h in ICU";
"";
"Created on May 3, 2020";
"";
"@author Eric Mader";
"""""""";
"";
"# Non-category for unassigned and non-character code points. @stable ICU 2.0";
"GC_UNASSIGNED = 0";
"# Cn ""Other, Not Assigned (no characters in [UnicodeData.txt] have this property)"" (same as GC_UNASSIGNED!) @stable ICU 2.0";
"GC_GENERAL_OTHER_TYPES = 0";
"# Lu @stable ICU 2.0";
"GC_UPPERCASE_LETTER = 1";
"# Ll @stable ICU 2.0";
"GC_LOWERCASE_LETTER = 2";
"# Lt @stable ICU 2.0";
"GC_TITLECASE_LETTER = 3";
"# Lm @stable ICU 2.0";
"GC_MODIFIER_LETTER = 4";
"# Lo @stable ICU 2.0";
"GC_OTHER_LETTER = 5";
"# Mn @stable ICU 2.0";
"GC_NON_SPACING_MARK = 6";
"# Me @stable ICU 2.0";
"GC_ENCLOSING_MARK = 7";
"# Mc @stable ICU 2.0";
"GC_COMBINING_SPACING_MARK = 8";
"# Nd @stable ICU 2.0";
"GC_DECIMAL_DIGIT_NUMBER = 9";
"# Nl @stable ICU 2.0";
"GC_LETTER_NUMBER = 10";
"# No @stable ICU 2.0";
"GC_OTHER_NUMBER = 11";
"# Zs @stable ICU 2.0";
"GC_SPACE_SEPARATOR = 12";
"# Zl @stable ICU 2.0";
"GC_LINE_SEPARATOR = 13";
"# Zp @stable ICU 2.0";
"GC_PARAGRAPH_SEPARATOR = 14";
"# Cc @stable ICU 2.0";
"GC_CONTROL_CHAR = 15";
"# Cf @stable ICU 2.0";
"GC_FORMAT_CHAR = 16";
"# Co @stable ICU 2.0";
"GC_PRIVATE_USE_CHAR = 17";
"# Cs @stable ICU 2.0";
"GC_SURROGATE = 18";
"# Pd @stable ICU 2.0";
"GC_DASH_PUNCTUATION = 19";
"# Ps @stable ICU 2.0";
"GC_START_PUNCTUATION = 20";
"# Pe @stable ICU 2.0";
"GC_END_PUNCTUATION = 21";
"# Pc @stable ICU 2.0";
"GC_CONNECTOR_PUNCTUATION = 22";
"# Po @stable ICU 2.0";
"GC_OTHER_PUNCTUATION = 23";
"# Sm @stable ICU 2.0";
"GC_MATH_SYMBOL = 24";
"# Sc @stable ICU 2.0";
"GC_CURRENCY_SYMBOL = 25";
"# Sk @stable ICU 2.0";
"GC_MODIFIER_SYMBOL = 26";
"# So @stable ICU 2.0";
"GC_OTHER_SYMBOL = 27";
"# Pi @stable ICU 2.0";
"GC_INITIAL_PUNCTUATION = 28";
"# Pf @stable ICU 2.0";
"GC_FINAL_PUNCTUATION = 29";
"";
"GC_CATEFORY_COUNT = 30";
"";
"# GC_XX_MASK constants are bit flags corresponding to Unicode";
"# general category values.";
"# For each category, the nth bit is set if the numeric value of the";
"# corresponding UCharCategory constant is n.";
"#";
"# There are also some GC_Y_MASK constants for groups of general categories";
"# like L for all letter categories.";
"";
"GC_CN_MASK = 1 << GC_GENERAL_OTHER_TYPES";
"";
"#  Mask constant for a UCharCategory. @stable ICU 2.1";
"GC_LU_MASK = 1 << GC_UPPERCASE_LETTER";
"#  Mask constant for a UCharCategory. @stable ICU 2.1";
"GC_LL_MASK = 1 << GC_LOWERCASE_LETTER";
"#  Mask constant for a UCharCategory. @stable ICU 2.1";
"GC_LT_MASK = 1 << GC_TITLECASE_LETTER";
"#  Mask constant for a UCharCategory. @stable ICU 2.1";
"GC_LM_MASK = 1 << GC_MODIFIER_LETTER";
"#  Mask constant for a UCharCategory. @stable ICU 2.1";
"GC_LO_MASK = 1 << GC_OTHER_LETTER";
"";
"#  Mask constant for a UCharCategory. @stable ICU 2.1";
"GC_MN_MASK = 1 << GC_NON_SPACING_MARK";
"#  Mask constant for a UCharCategory. @stable ICU 2.1";
"GC_ME_MASK = 1 << GC_ENCLOSING_MARK";
"#  Mask constant for a UCharCategory. @stable ICU 2.1";
"GC_MC_MASK = 1 << GC_COMBINING_SPACING_MARK";
"";
"#  Mask constant for a UCharCategory. @stable ICU 2.1";
"GC_ND_MASK = 1 << GC_DECIMAL_DIGIT_NUMBER";
"#  Mask constant for a UCharCategory. @stable ICU 2.1";
"GC_NL_MASK = 1 << GC_LETTER_NUMBER";
"#  Mask constant for a UCharCategory. @stable ICU 2.1";
"GC_NO_MASK = 1 << GC_OTHER_NUMBER";
"";
"#  Mask constant for a UCharCategory. @stable ICU 2.1";
"GC_ZS_MASK = 1 << GC_SPACE_SEPARATOR";
"#  Mask constant for a UCharCategory. @stable ICU 2.1";
"GC_ZL_MASK = 1 << GC_LINE_SEPARATOR";
"#  Mask constant for a UCharCategory. @stable ICU 2.1";
"GC_ZP_MASK = 1 << GC_PARAGRAPH_SEPARATOR";
"";
"#  Mask constant for a UCharCategory. @stable ICU 2.1";
"GC_CC_MASK = 1 << GC_CONTROL_CHAR";
"#  Mask constant for a UCharCategory. @stable ICU 2.1";
"GC_CF_MASK = 1 << GC_FORMAT_CHAR";
"#  Mask constant for a UCharCategory. @stable ICU 2.1";
"GC_CO_MASK = 1 << GC_PRIVATE_USE_CHAR";
"#  Mask constant for a UCharCategory. @stable ICU 2.1";
"GC_CS_MASK = 1 << GC_SURROGATE";
"";
"#  Mask constant for a UCharCategory. @stable ICU 2.1";
"GC_PD_MASK = 1 << GC_DASH_PUNCTUATION";
"#  Mask constant for a UCharCategory. @stable ICU 2.1";
"GC_PS_MASK = 1 << GC_START_PUNCTUATION";
"#  Mask constant for a UCharCategory. @stable ICU 2.1";
"GC_PE_MASK = 1 << GC_END_PUNCTUATION";
"#  Mask constant for a UCharCategory. @stable ICU 2.1";
"GC_PC_MASK = 1 << GC_CONNECTOR_PUNCTUATION";
"#  Mask constant for a UCharCategory. @stable ICU 2.1";
"GC_PO_MASK = 1 << GC_OTHER_PUNCTUATION";
"";
"#  Mask constant for a UCharCategory. @stable ICU 2.1";
"GC_SM_MASK = 1 << GC_MATH_SYMBOL";
"#  Mask constant for a UCharCategory. @stable ICU 2.1";
"GC_SC_MASK = 1 << GC_CURRENCY_SYMBOL";
"#  Mask constant for a UCharCategory. @stable ICU 2.1";
"GC_SK_MASK = 1 << GC_MODIFIER_SYMBOL";
"#  Mask constant for a UCharCategory. @stable ICU 2.1";
"GC_SO_MASK = 1 << GC_OTHER_SYMBOL";
"";
"#  Mask constant for a UCharCategory. @stable ICU 2.1";
"GC_PI_MASK = 1 << GC_INITIAL_PUNCTUATION";
"#  Mask constant for a UCharCategory. @stable ICU 2.1";
"GC_PF_MASK = 1 << GC_FINAL_PUNCTUATION";
"";
"";
"#  Mask constant for multiple UCharCategory bits (L Letters). @stable ICU 2.1";
"GC_L_MASK = (GC_LU_MASK|GC_LL_MASK|GC_LT_MASK|GC_LM_MASK|GC_LO_MASK)";
"";
"#  Mask constant for multiple UCharCategory bits (LC Cased Letters). @stable ICU 2.1";
"GC_LC_MASK = (GC_LU_MASK|GC_LL_MASK|GC_LT_MASK)";
"";
"#  Mask constant for multiple UCharCategory bits (M Marks). @stable ICU 2.1";
"GC_M_MASK = (GC_MN_MASK|GC_ME_MASK|GC_MC_MASK)";
"";
"#  Mask constant for multiple UCharCategory bits (N Numbers). @stable ICU 2.1";
"GC_N_MASK = (GC_ND_MASK|GC_NL_MASK|GC_NO_MASK)";
"";
"#  Mask constant for multiple UCharCategory bits (Z Separators). @stable ICU 2.1";
"GC_Z_MASK = (GC_ZS_MASK|GC_ZL_MASK|GC_ZP_MASK)";
"";
"#  Mask constant for multiple UCharCategory bits (C Others). @stable ICU 2.1";
"GC_C_MASK = (GC_CN_MASK|GC_CC_MASK|GC_CF_MASK|GC_CO_MASK|GC_CS_MASK)";
"";
"#  Mask constant for multiple UCharCategory bits (P Punctuation). @stable ICU 2.1";
"GC_P_MASK = (GC_PD_MASK|GC_PS_MASK|GC_PE_MASK|GC_PC_MASK|GC_PO_MASK|GC_PI_MASK|GC_PF_MASK)";
"";
"#  Mask constant for multiple UCharCategory bits (S Symbols). @stable ICU 2.1";
"GC_S_MASK = (GC_SM_MASK|GC_SC_MASK|GC_SK_MASK|GC_SO_MASK)";
"";
"generalCategories = {";
"    GC_GENERAL_OTHER_TYPES: 'Cn',";
"    GC_UPPERCASE_LETTER: 'Lu',";
"    GC_LOWERCASE_LETTER: 'Ll',";
"    GC_TITLECASE_LETTER: 'Lt',";
"    GC_MODIFIER_LETTER: 'Lm',";
"    GC_OTHER_LETTER: 'Lo',";
"    GC_NON_SPACING_MARK: 'Mn',";
"    GC_ENCLOSING_MARK: 'Me',";
"    GC_COMBINING_SPACING_MARK: 'Mc',";
"    GC_DECIMAL_DIGIT_NUMBER: 'Nd',";
"    GC_LETTER_NUMBER: 'Nl',";
"    GC_OTHER_NUMBER: 'No',";
"    GC_SPACE_SEPARATOR: 'Zs',";
"    GC_LINE_SEPARATOR: 'Zl',";
"    GC_PARAGRAPH_SEPARATOR: 'Zp',";
"    GC_CONTROL_CHAR: 'Cc',";
"    GC_FORMAT_CHAR: 'Cf',";
"    GC_PRIVATE_USE_CHAR: 'Co',";
"    GC_SURROGATE: 'Cs',";
"    GC_DASH_PUNCTUATION: 'Pd',";
"    GC_START_PUNCTUATION: 'Ps',";
"    GC_END_PUNCTUATION: 'Pe',";
"    GC_CONNECTOR_PUNCTUATION: 'Pc',";
"    GC_OTHER_PUNCTUATION: 'Po',";
"    GC_MATH_SYMBOL: 'Sm',";
"    GC_CURRENCY_SYMBOL: 'Sc',";
"    GC_MODIFIER_SYMBOL: 'Sk',";
"    GC_OTHER_SYMBOL: 'So',";
"    GC_INITIAL_PUNCTUATION: 'Pi',";
"    GC_FINAL_PUNCTUATION: 'Pf'";
"}";
""].

(** JoiningTypesAndGroups.py:1-234 *)
Definition JoiningTypesAndGroups_lines : list string := [
"""""""\";
"Based on types in uchar.h from ICU";
"";
"Created on May 2, 2020";
"";
"@author Eric Mader";
"""""""";
"";
"U_JT_NON_JOINING = 0  # [U]";
"U_JT_JOIN_CAUSING = 1  # [C]";
"U_JT_DUAL_JOINING = 2  # [D]";
"U_JT_LEFT_JOINING = 3  # [L]";
"U_JT_RIGHT_JOINING = 4  # [R]";
"U_JT_TRANSPARENT = 5  # [T]";
"";
"joiningTypes = {";
"    U_JT_NON_JOINING: 'U',";
"    U_JT_JOIN_CAUSING: 'C',";
"    U_JT_DUAL_JOINING: 'D',";
"    U_JT_LEFT_JOINING: 'L',";
"    U_JT_RIGHT_JOINING: 'R',";
"    U_JT_TRANSPARENT: 'T'";
"}";
"";
"U_JG_NO_JOINING_GROUP = 0";
"U_JG_AIN = 1";
"U_JG_ALAPH = 2";
"U_JG_ALEF = 3";
"U_JG_BEH = 4";
"U_JG_BETH = 5";
"U_JG_DAL = 6";
"U_JG_DALATH_RISH = 7";
"U_JG_E = 8";
"U_JG_FEH = 9";
"U_JG_FINAL_SEMKATH = 10";
"U_JG_GAF = 11";
"U_JG_GAMAL = 12";
"U_JG_HAH = 13";
"U_JG_TEH_MARBUTA_GOAL = 14";
"U_JG_HAMZA_ON_HEH_GOAL = U_JG_TEH_MARBUTA_GOAL";
"U_JG_HE = 15";
"U_JG_HEH = 16";
"U_JG_HEH_GOAL = 17";
"U_JG_HETH = 18";
"U_JG_KAF = 19";
"U_JG_KAPH = 20";
"U_JG_KNOTTED_HEH = 21";
"U_JG_LAM = 22";
"U_JG_LAMADH = 23";
"U_JG_MEEM = 24";
"U_JG_MIM = 25";
"U_JG_NOON = 26";
"U_JG_NUN = 27";
"U_JG_PE = 28";
"U_JG_QAF = 29";
"U_JG_QAPH = 30";
"U_JG_REH = 31";
"U_JG_REVERSED_PE = 32";
"U_JG_SAD = 33";
"U_JG_SADHE = 34";
"U_JG_SEEN = 35";
"U_JG_SEMKATH = 36";
"U_JG_SHIN = 37";
"U_JG_SWASH_KAF = 38";
"U_JG_SYRIAC_WAW = 39";
"U_JG_TAH = 40";
"U_JG_TAW = 41";
"U_JG_TEH_MARBUTA = 42";
"U_JG_TETH = 43";
"U_JG_WAW = 44";
"U_JG_YEH = 45";
"U_JG_YEH_BARREE = 46";
"U_JG_YEH_WITH_TAIL = 47";
"U_JG_YUDH = 48";
"U_JG_YUDH_HE = 49";
"U_JG_ZAIN = 50";
"U_JG_FE = 51";
"U_JG_KHAPH = 52";
"U_JG_ZHAIN = 53";
"U_JG_BURUSHASKI_YEH_BARREE = 54";
"U_JG_FARSI_YEH = 55";
"U_JG_NYA = 56";
"U_JG_ROHINGYA_YEH = 57";
"U_JG_MANICHAEAN_ALEPH = 58";
"U_JG_MANICHAEAN_AYIN = 59";
"U_JG_MANICHAEAN_BETH = 60";
"U_JG_MANICHAEAN_DALETH = 61";
"U_JG_MANICHAEAN_DHAMEDH = 62";
"U_JG_MANICHAEAN_FIVE = 63";
"U_JG_MANICHAEAN_GIMEL = 64";
"U_JG_MANICHAEAN_HETH = 65";
"U_JG_MANICHAEAN_HUNDRED = 66";
"U_JG_MANICHAEAN_KAPH = 67";
"U_JG_MANICHAEAN_LAMEDH = 68";
"U_JG_MANICHAEAN_MEM = 69";
"U_JG_MANICHAEAN_NUN = 70";
"U_JG_MANICHAEAN_ONE = 71";
"U_JG_MANICHAEAN_PE = 72";
"U_JG_MANICHAEAN_QOPH = 73";
"U_JG_MANICHAEAN_RESH = 74";
"U_JG_MANICHAEAN_SADHE = 75";
"U_JG_MANICHAEAN_SAMEKH = 76";
"U_JG_MANICHAEAN_TAW = 77";
"U_JG_MANICHAEAN_TEN = 78";
"U_JG_MANICHAEAN_TETH = 79";
"U_JG_MANICHAEAN_THAMEDH = 80";
"U_JG_MANICHAEAN_TWENTY = 81";
"U_JG_MANICHAEAN_WAW = 82";
"U_JG_MANICHAEAN_YODH = 83";
"U_JG_MANICHAEAN_ZAYIN = 84";
"U_JG_STRAIGHT_WAW = 85";
"U_JG_AFRICAN_FEH = 86";
"U_JG_AFRICAN_NOON = 87";
"U_JG_AFRICAN_QAF = 88";
"U_JG_MALAYALAM_BHA = 89";
"U_JG_MALAYALAM_JA = 90";
"U_JG_MALAYALAM_LLA = 91";
"U_JG_MALAYALAM_LLLA = 92";
"U_JG_MALAYALAM_NGA = 93";
"U_JG_MALAYALAM_NNA = 94";
"U_JG_MALAYALAM_NNNA = 95";
"U_JG_MALAYALAM_NYA = 96";
"U_JG_MALAYALAM_RA = 97";
"U_JG_MALAYALAM_SSA = 98";
"U_JG_MALAYALAM_TTA = 99";
"U_JG_HANIFI_ROHINGYA_KINNA_YA = 100";
"U_JG_HANIFI_ROHINGYA_PA = 101";
"";
"joiningGroups = {";
"    U_JG_NO_JOINING_GROUP: ""No Joining Group"",";
"    U_JG_AIN: ""Ain"",";
"    U_JG_ALAPH: ""Alaph"",";
"    U_JG_ALEF: ""Alef"",";
"    U_JG_BEH: ""Beh"",";
"    U_JG_BETH: ""Beth"",";
"    U_JG_DAL: ""Dal"",";
"    U_JG_DALATH_RISH: ""Dalath Rish"",";
"    U_JG_E: ""E"",";
"    U_JG_FEH: ""Feh"",";
"    U_JG_FINAL_SEMKATH: ""Final Semkath"",";
"    U_JG_GAF: ""Gaf"",";
"    U_JG_GAMAL: ""Gamal"",";
"    U_JG_HAH: ""Hah"",";
"    U_JG_TEH_MARBUTA_GOAL: ""Teh Marbuta Goal"",";
"    U_JG_HE: ""He"",";
"    U_JG_HEH: ""Heh"",";
"    U_JG_HEH_GOAL: ""Heh Goal"",";
"    U_JG_HETH: ""Heth"",";
"    U_JG_KAF: ""Kaf"",";
"    U_JG_KAPH: ""Kaph"",";
"    U_JG_KNOTTED_HEH: ""Knotted Heh"",";
"    U_JG_LAM: ""Lam"",";
"    U_JG_LAMADH: ""Lamadh"",";
"    U_JG_MEEM: ""Meem"",";
"    U_JG_MIM: ""Mim"",";
"    U_JG_NOON: ""Noon"",";
"    U_JG_NUN: ""Nun"",";
"    U_JG_PE: ""Pe"",";
"    U_JG_QAF: ""Qaf"",";
"    U_JG_QAPH: ""Qaph"",";
"    U_JG_REH: ""Reh"",";
"    U_JG_REVERSED_PE: ""Reversed Pe"",";
"    U_JG_SAD: ""Sad"",";
"    U_JG_SADHE: ""Sadhe"",";
"    U_JG_SEEN: ""Seen"",";
"    U_JG_SEMKATH: ""Semkath"",";
"    U_JG_SHIN: ""Shin"",";
"    U_JG_SWASH_KAF: ""Swash Kaf"",";
"    U_JG_SYRIAC_WAW: ""Syriac Waw"",";
"    U_JG_TAH: ""Tah"",";
"    U_JG_TAW: ""Taw"",";
"    U_JG_TEH_MARBUTA: ""Teh Marbuta"",";
"    U_JG_TETH: ""Teth"",";
"    U_JG_WAW: ""Waw"",";
"    U_JG_YEH: ""Yeh"",";
"    U_JG_YEH_BARREE: ""Yeh Barree"",";
"    U_JG_YEH_WITH_TAIL: ""Yeh With Tail"",";
"    U_JG_YUDH: ""Yudh"",";
"    U_JG_YUDH_HE: ""Yudh He"",";
"    U_JG_ZAIN: ""Zain"",";
"    U_JG_FE: ""Fe"",";
"    U_JG_KHAPH: ""Khaph"",";
"    U_JG_ZHAIN: ""Zhain"",";
"    U_JG_BURUSHASKI_YEH_BARREE: ""Burushaski Yeh Barree"",";
"    U_JG_FARSI_YEH: ""Farsi Yeh"",";
"    U_JG_NYA: ""Nya"",";
"    U_JG_ROHINGYA_YEH: ""Rohingya Yeh"",";
"    U_JG_MANICHAEAN_ALEPH: ""Manichaean Aleph"",";
"    U_JG_MANICHAEAN_AYIN: ""Manichaean Ayin"",";
"    U_JG_MANICHAEAN_BETH: ""Manichaean Beth"",";
"    U_JG_MANICHAEAN_DALETH: ""Manichaean Daleth"",";
"    U_JG_MANICHAEAN_DHAMEDH: ""Manichaean Dhamedh"",";
"    U_JG_MANICHAEAN_FIVE: ""Manichaean Five"",";
"    U_JG_MANICHAEAN_GIMEL: ""Manichaean Gimel"",";
"    U_JG_MANICHAEAN_HETH: ""Manichaean Heth"",";
"    U_JG_MANICHAEAN_HUNDRED: ""Manichaean Hundred"",";
"    U_JG_MANICHAEAN_KAPH: ""Manichaean Kaph"",";
"    U_JG_MANICHAEAN_LAMEDH: ""Manichaean Lamedh"",";
"    U_JG_MANICHAEAN_MEM: ""Manichaean Mem"",";
"    U_JG_MANICHAEAN_NUN: ""Manichaean Nun"",";
"    U_JG_MANICHAEAN_ONE: ""Manichaean One"",";
"    U_JG_MANICHAEAN_PE: ""Manichaean Pe"",";
"    U_JG_MANICHAEAN_QOPH: ""Manichaean Qoph"",";
"    U_JG_MANICHAEAN_RESH: ""Manichaean Resh"",";
"    U_JG_MANICHAEAN_SADHE: ""Manichaean Sadhe"",";
"    U_JG_MANICHAEAN_SAMEKH: ""Manichaean Samekh"",";
"    U_JG_MANICHAEAN_TAW: ""Manichaean Taw"",";
"    U_JG_MANICHAEAN_TEN: ""Manichaean Ten"",";
"    U_JG_MANICHAEAN_TETH: ""Manichaean Teth"",";
"    U_JG_MANICHAEAN_THAMEDH: ""Manichaean Thamedh"",";
"    U_JG_MANICHAEAN_TWENTY: ""Manichaean Twenty"",";
"    U_JG_MANICHAEAN_WAW: ""Manichaean Waw"",";
"    U_JG_MANICHAEAN_YODH: ""Manichaean Yodh"",";
"    U_JG_MANICHAEAN_ZAYIN: ""Manichaean Zayin"",";
"    U_JG_STRAIGHT_WAW: ""Straight Waw"",";
"    U_JG_AFRICAN_FEH: ""African Feh"",";
"    U_JG_AFRICAN_NOON: ""African Noon"",";
"    U_JG_AFRICAN_QAF: ""African Qaf"",";
"    U_JG_MALAYALAM_BHA: ""Malayalam Bha"",";
"    U_JG_MALAYALAM_JA: ""Malayalam Ja"",";
"    U_JG_MALAYALAM_LLA: ""Malayalam Lla"",";
"    U_JG_MALAYALAM_LLLA: ""Malayalam Llla"",";
"    U_JG_MALAYALAM_NGA: ""Malayalam Nga"",";
"    U_JG_MALAYALAM_NNA: ""Malayalam Nna"",";
"    U_JG_MALAYALAM_NNNA: ""Malayalam Nnna"",";
"    U_JG_MALAYALAM_NYA: ""Malayalam Nya"",";
"    U_JG_MALAYALAM_RA: ""Malayalam Ra"",";
"    U_JG_MALAYALAM_SSA: ""Malayalam Ssa"",";
"    U_JG_MALAYALAM_TTA: ""Malayalam Tta"",";
"    U_JG_HANIFI_ROHINGYA_KINNA_YA: ""Hanifi Rohingya Kinna Ya"",";
"    U_JG_HANIFI_ROHINGYA_PA: ""Hanifi Rohingya Pa""";
"}";
"";
""].

(** LayoutTypes.py:1-136 *)
Definition LayoutTypes_lines : list string := [
"""""""\";
"Based on values from uchar.h in ICU";
"";
"Created on May 14, 2020";
"";
"@author Eric Mader";
"""""""";
"";
"# Indic positional category";
"U_INPC_NA = 0";
"U_INPC_BOTTOM = 1";
"U_INPC_BOTTOM_AND_LEFT = 2";
"U_INPC_BOTTOM_AND_RIGHT = 3";
"U_INPC_LEFT = 4";
"U_INPC_LEFT_AND_RIGHT = 5";
"U_INPC_OVERSTRUCK = 6";
"U_INPC_RIGHT = 7";
"U_INPC_TOP = 8";
"U_INPC_TOP_AND_BOTTOM = 9";
"U_INPC_TOP_AND_BOTTOM_AND_RIGHT = 10";
"U_INPC_TOP_AND_LEFT = 11";
"U_INPC_TOP_AND_LEFT_AND_RIGHT = 12";
"U_INPC_TOP_AND_RIGHT = 13";
"U_INPC_VISUAL_ORDER_LEFT = 14";
"U_INPC_TOP_AND_BOTTOM_AND_LEFT = 15";
"";
"# Indic syllabic category";
"U_INSC_OTHER = 0";
"U_INSC_AVAGRAHA = 1";
"U_INSC_BINDU = 2";
"U_INSC_BRAHMI_JOINING_NUMBER = 3";
"U_INSC_CANTILLATION_MARK = 4";
"U_INSC_CONSONANT = 5";
"U_INSC_CONSONANT_DEAD = 6";
"U_INSC_CONSONANT_FINAL = 7";
"U_INSC_CONSONANT_HEAD_LETTER = 8";
"U_INSC_CONSONANT_INITIAL_POSTFIXED = 9";
"U_INSC_CONSONANT_KILLER = 10";
"U_INSC_CONSONANT_MEDIAL = 11";
"U_INSC_CONSONANT_PLACEHOLDER = 12";
"U_INSC_CONSONANT_PRECEDING_REPHA = 13";
"U_INSC_CONSONANT_PREFIXED = 14";
"U_INSC_CONSONANT_SUBJOINED = 15";
"U_INSC_CONSONANT_SUCCEEDING_REPHA = 16";
"U_INSC_CONSONANT_WITH_STACKER = 17";
"U_INSC_GEMINATION_MARK = 18";
"U_INSC_INVISIBLE_STACKER = 19";
"U_INSC_JOINER = 20";
"U_INSC_MODIFYING_LETTER = 21";
"U_INSC_NON_JOINER = 22";
"U_INSC_NUKTA = 23";
"U_INSC_NUMBER = 24";
"U_INSC_NUMBER_JOINER = 25";
"U_INSC_PURE_KILLER = 26";
"U_INSC_REGISTER_SHIFTER = 27";
"U_INSC_SYLLABLE_MODIFIER = 28";
"U_INSC_TONE_LETTER = 29";
"U_INSC_TONE_MARK = 30";
"U_INSC_VIRAMA = 31";
"U_INSC_VISARGA = 32";
"U_INSC_VOWEL = 33";
"U_INSC_VOWEL_DEPENDENT = 34";
"U_INSC_VOWEL_INDEPENDENT = 35";
"";
"# vertical orientation";
"U_VO_ROTATED = 0";
"U_VO_TRANSFORMED_ROTATED = 1";
"U_VO_TRANSFORMED_UPRIGHT = 2";
"U_VO_UPRIGHT = 3";
"";
"inpcNames = {";
"    U_INPC_NA: ""NA"",";
"    U_INPC_BOTTOM: ""Bottom"",";
"    U_INPC_BOTTOM_AND_LEFT: ""Bottom_And_Left"",";
"    U_INPC_BOTTOM_AND_RIGHT: ""Bottom_And_Right"",";
"    U_INPC_LEFT: ""Left"",";
"    U_INPC_LEFT_AND_RIGHT: ""Left_And_Right"",";
"    U_INPC_OVERSTRUCK: ""Overstruck"",";
"    U_INPC_RIGHT: ""Right"",";
"    U_INPC_TOP: ""Top"",";
"    U_INPC_TOP_AND_BOTTOM: ""Top_And_Bottom"",";
"    U_INPC_TOP_AND_BOTTOM_AND_RIGHT: ""Top_And_Bottom_And_Right"",";
"    U_INPC_TOP_AND_LEFT: ""Top_And_Left"",";
"    U_INPC_TOP_AND_LEFT_AND_RIGHT: ""Top_And_Left_And_Right"",";
"    U_INPC_TOP_AND_RIGHT: ""Top_And_Right"",";
"    U_INPC_VISUAL_ORDER_LEFT: ""Visual_Order_Left"",";
"    U_INPC_TOP_AND_BOTTOM_AND_LEFT: ""Top_And_Bottom_And_Left""";
"}";
"";
"inscNames = {";
"    U_INSC_OTHER: ""Other"",";
"    U_INSC_AVAGRAHA: ""Avagraha"",";
"    U_INSC_BINDU: ""Bindu"",";
"    U_INSC_BRAHMI_JOINING_NUMBER: ""Brahmi_Joining_Number"",";
"    U_INSC_CANTILLATION_MARK: ""Cantillation_Mark"",";
"    U_INSC_CONSONANT: ""Consonant"",";
"    U_INSC_CONSONANT_DEAD: ""Consonant_Dead"",";
"    U_INSC_CONSONANT_FINAL: ""Consonant_Final"",";
"    U_INSC_CONSONANT_HEAD_LETTER: ""Consonant_Head_Letter"",";
"    U_INSC_CONSONANT_INITIAL_POSTFIXED: ""Consonant_Initial_Postfixed"",";
"    U_INSC_CONSONANT_KILLER: ""Consonant_Killer"",";
"    U_INSC_CONSONANT_MEDIAL: ""Consonant_Medial"",";
"    U_INSC_CONSONANT_PLACEHOLDER: ""Consonant_Placeholder"",";
"    U_INSC_CONSONANT_PRECEDING_REPHA: ""Consonant_Preceding_Repha"",";
"    U_INSC_CONSONANT_PREFIXED: ""Consonant_Prefixed"",";
"    U_INSC_CONSONANT_SUBJOINED: ""Consonant_Subjoined"",";
"    U_INSC_CONSONANT_SUCCEEDING_REPHA: ""Consonant_Succeeding_Repha"",";
"    U_INSC_CONSONANT_WITH_STACKER: ""Consonant_With_Stacker"",";
"    U_INSC_GEMINATION_MARK: ""Gemination_Mark"",";
"    U_INSC_INVISIBLE_STACKER: ""Invisible_Stacker"",";
"    U_INSC_JOINER: ""Joiner"",";
"    U_INSC_MODIFYING_LETTER: ""Modifying_Letter"",";
"    U_INSC_NON_JOINER: ""Non_Joiner"",";
"    U_INSC_NUKTA: ""Nukta"",";
"    U_INSC_NUMBER: ""Number"",";
"    U_INSC_NUMBER_JOINER: ""Number_Joiner"",";
"    U_INSC_PURE_KILLER: ""Pure_Killer"",";
"    U_INSC_REGISTER_SHIFTER: ""Register_Shifter"",";
"    U_INSC_SYLLABLE_MODIFIER: ""Syllable_Modifier"",";
"    U_INSC_TONE_LETTER: ""Tone_Letter"",";
"    U_INSC_TONE_MARK: ""Tone_Mark"",";
"    U_INSC_VIRAMA: ""Virama"",";
"    U_INSC_VISARGA: ""Visarga"",";
"    U_INSC_VOWEL: ""Vowel"",";
"    U_INSC_VOWEL_DEPENDENT: ""Vowel_Dependent"",";
"    U_INSC_VOWEL_INDEPENDENT: ""Vowel_Independent""";
"}";
"";
"voNames = {";
"U_VO_ROTATED: ""R"",";
"U_VO_TRANSFORMED_ROTATED: ""Tr"",";
"U_VO_TRANSFORMED_UPRIGHT: ""Tu"",";
"U_VO_UPRIGHT: ""U""";
"}";
"";
""].

(** Scripts.py:1-430 *)
Definition Scripts_lines : list string := [
"""""""\";
"Base on uscript.h from ICU";
"";
"Created on Apr 30, 2020";
"";
"@author Eric Mader";
"""""""";
"";
"USCRIPT_INVALID_CODE = -1";
"USCRIPT_COMMON       =  0  # 'Zyyy'";
"USCRIPT_INHERITED    =  1  # 'Zinh' # ""Code for inherited script"", for non-spacing combining marks; also Qaai";
"USCRIPT_ARABIC       =  2  # 'Arab'";
"USCRIPT_ARMENIAN     =  3  # 'Armn'";
"USCRIPT_BENGALI      =  4  # 'Beng'";
"USCRIPT_BOPOMOFO     =  5  # 'Bopo'";
"USCRIPT_CHEROKEE     =  6  # 'Cher'";
"USCRIPT_COPTIC       =  7  # 'Copt'";
"USCRIPT_CYRILLIC     =  8  # 'Cyrl'";
"USCRIPT_DESERET      =  9  # 'Dsrt'";
"USCRIPT_DEVANAGARI   = 10  # 'Deva'";
"USCRIPT_ETHIOPIC     = 11  # 'Ethi'";
"USCRIPT_GEORGIAN     = 12  # 'Geor'";
"USCRIPT_GOTHIC       = 13  # 'Goth'";
"USCRIPT_GREEK        = 14  # 'Grek'";
"USCRIPT_GUJARATI     = 15  # 'Gujr'";
"USCRIPT_GURMUKHI     = 16  # 'Guru'";
"USCRIPT_HAN          = 17  # 'Hani'";
"USCRIPT_HANGUL       = 18  # 'Hang'";
"USCRIPT_HEBREW       = 19  # 'Hebr'";
"USCRIPT_HIRAGANA     = 20  # 'Hira'";
"USCRIPT_KANNADA      = 21  # 'Knda'";
"USCRIPT_KATAKANA     = 22  # 'Kana'";
"USCRIPT_KHMER        = 23  # 'Khmr'";
"USCRIPT_LAO          = 24  # 'Laoo'";
"USCRIPT_LATIN        = 25  # 'Latn'";
"USCRIPT_MALAYALAM    = 26  # 'Mlym'";
"USCRIPT_MONGOLIAN    = 27  # 'Mong'";
"USCRIPT_MYANMAR      = 28  # 'Mymr'";
"USCRIPT_OGHAM        = 29  # 'Ogam'";
"USCRIPT_OLD_ITALIC   = 30  # 'Ital'";
"USCRIPT_ORIYA        = 31  # 'Orya'";
"USCRIPT_RUNIC        = 32  # 'Runr'";
"USCRIPT_SINHALA      = 33  # 'Sinh'";
"USCRIPT_SYRIAC       = 34  # 'Syrc'";
"USCRIPT_TAMIL        = 35  # 'Taml'";
"USCRIPT_TELUGU       = 36  # 'Telu'";
"USCRIPT_THAANA       = 37  # 'Thaa'";
"USCRIPT_THAI         = 38  # 'Thai'";
"USCRIPT_TIBETAN      = 39  # 'Tibt'";
"USCRIPT_CANADIAN_ABORIGINAL = 40  # 'Cans'";
"USCRIPT_UCAS         = USCRIPT_CANADIAN_ABORIGINAL,";
"USCRIPT_YI           = 41  # 'Yiii'";
"";
"# New scripts in Unicode 3.2";
"USCRIPT_TAGALOG      = 42  # 'Tglg'";
"USCRIPT_HANUNOO      = 43  # 'Hano'";
"USCRIPT_BUHID        = 44  # 'Buhd'";
"USCRIPT_TAGBANWA     = 45  # 'Tagb'";
"";
"# New scripts in Unicode 4";
"USCRIPT_BRAILLE      = 46  # 'Brai'";
"USCRIPT_CYPRIOT      = 47  # 'Cprt'";
"USCRIPT_LIMBU        = 48  # 'Limb'";
"USCRIPT_LINEAR_B     = 49  # 'Linb'";
"USCRIPT_OSMANYA      = 50  # 'Osma'";
"USCRIPT_SHAVIAN      = 51  # 'Shaw'";
"USCRIPT_TAI_LE       = 52  # 'Tale'";
"USCRIPT_UGARITIC     = 53  # 'Ugar'";
"";
"# New scripts in Unicode 4.0.1";
"USCRIPT_KATAKANA_OR_HIRAGANA = 54  # 'Hrkt'";
"";
"# New scripts in Unicode 4.1";
"USCRIPT_BUGINESE      = 55  # 'Bugi'";
"USCRIPT_GLAGOLITIC    = 56  # 'Glag'";
"USCRIPT_KHAROSHTHI    = 57  # 'Khar'";
"USCRIPT_SYLOTI_NAGRI  = 58  # 'Sylo'";
"USCRIPT_NEW_TAI_LUE   = 59  # 'Talu'";
"USCRIPT_TIFINAGH      = 60  # 'Tfng'";
"USCRIPT_OLD_PERSIAN   = 61  # 'Xpeo'";
"";
"# New script codes from Unicode and ISO 15924";
"USCRIPT_BALINESE                      = 62  # 'Bali'";
"USCRIPT_BATAK                         = 63  # 'Batk'";
"USCRIPT_BLISSYMBOLS                   = 64  # 'Blis'";
"USCRIPT_BRAHMI                        = 65  # 'Brah'";
"USCRIPT_CHAM                          = 66  # 'Cham'";
"USCRIPT_CIRTH                         = 67  # 'Cirt'";
"USCRIPT_OLD_CHURCH_SLAVONIC_CYRILLIC  = 68  # 'Cyrs'";
"USCRIPT_DEMOTIC_EGYPTIAN              = 69  # 'Egyd'";
"USCRIPT_HIERATIC_EGYPTIAN             = 70  # 'Egyh'";
"USCRIPT_EGYPTIAN_HIEROGLYPHS          = 71  # 'Egyp'";
"USCRIPT_KHUTSURI                      = 72  # 'Geok'";
"USCRIPT_SIMPLIFIED_HAN                = 73  # 'Hans'";
"USCRIPT_TRADITIONAL_HAN               = 74  # 'Hant'";
"USCRIPT_PAHAWH_HMONG                  = 75  # 'Hmng'";
"USCRIPT_OLD_HUNGARIAN                 = 76  # 'Hung'";
"USCRIPT_HARAPPAN_INDUS                = 77  # 'Inds'";
"USCRIPT_JAVANESE                      = 78  # 'Java'";
"USCRIPT_KAYAH_LI                      = 79  # 'Kali'";
"USCRIPT_LATIN_FRAKTUR                 = 80  # 'Latf'";
"USCRIPT_LATIN_GAELIC                  = 81  # 'Latg'";
"USCRIPT_LEPCHA                        = 82  # 'Lepc'";
"USCRIPT_LINEAR_A                      = 83  # 'Lina'";
"USCRIPT_MANDAIC                       = 84  # 'Mand'";
"USCRIPT_MANDAEAN                      = USCRIPT_MANDAIC,";
"USCRIPT_MAYAN_HIEROGLYPHS             = 85  # 'Maya'";
"USCRIPT_MEROITIC_HIEROGLYPHS          = 86  # 'Mero'";
"USCRIPT_MEROITIC                      = USCRIPT_MEROITIC_HIEROGLYPHS,";
"USCRIPT_NKO                           = 87  # 'Nkoo'";
"USCRIPT_ORKHON                        = 88  # 'Orkh'";
"USCRIPT_OLD_PERMIC                    = 89  # 'Perm'";
"USCRIPT_PHAGS_PA                      = 90  # 'Phag'";
"USCRIPT_PHOENICIAN                    = 91  # 'Phnx'";
"USCRIPT_MIAO                          = 92  # 'Plrd'";
"USCRIPT_PHONETIC_POLLARD              = USCRIPT_MIAO,";
"USCRIPT_RONGORONGO                    = 93  # 'Roro'";
"USCRIPT_SARATI                        = 94  # 'Sara'";
"USCRIPT_ESTRANGELO_SYRIAC             = 95  # 'Syre'";
"USCRIPT_WESTERN_SYRIAC                = 96  # 'Syrj'";
"USCRIPT_EASTERN_SYRIAC                = 97  # 'Syrn'";
"USCRIPT_TENGWAR                       = 98  # 'Teng'";
"USCRIPT_VAI                           = 99  # 'Vaii'";
"USCRIPT_VISIBLE_SPEECH                = 100  # 'Visp'";
"USCRIPT_CUNEIFORM                     = 101  # 'Xsux'";
"USCRIPT_UNWRITTEN_LANGUAGES           = 102  # 'Zxxx'";
"USCRIPT_UNKNOWN                       = 103  # 'Zzzz' # Unknown=""Code for uncoded script"", for unassigned code points";
"USCRIPT_CARIAN                        = 104  # 'Cari'";
"USCRIPT_JAPANESE                      = 105  # 'Jpan'";
"USCRIPT_LANNA                         = 106  # 'Lana'";
"USCRIPT_LYCIAN                        = 107  # 'Lyci'";
"USCRIPT_LYDIAN                        = 108  # 'Lydi'";
"USCRIPT_OL_CHIKI                      = 109  # 'Olck'";
"USCRIPT_REJANG                        = 110  # 'Rjng'";
"USCRIPT_SAURASHTRA                    = 111  # 'Saur'";
"USCRIPT_SIGN_WRITING                  = 112  # 'Sgnw'";
"USCRIPT_SUNDANESE                     = 113  # 'Sund'";
"USCRIPT_MOON                          = 114  # 'Moon'";
"USCRIPT_MEITEI_MAYEK                  = 115  # 'Mtei'";
"USCRIPT_IMPERIAL_ARAMAIC              = 116  # 'Armi'";
"USCRIPT_AVESTAN                       = 117  # 'Avst'";
"USCRIPT_CHAKMA                        = 118  # 'Cakm'";
"USCRIPT_KOREAN                        = 119  # 'Kore'";
"USCRIPT_KAITHI                        = 120  # 'Kthi'";
"USCRIPT_MANICHAEAN                    = 121  # 'Mani'";
"USCRIPT_INSCRIPTIONAL_PAHLAVI         = 122  # 'Phli'";
"USCRIPT_PSALTER_PAHLAVI               = 123  # 'Phlp'";
"USCRIPT_BOOK_PAHLAVI                  = 124  # 'Phlv'";
"USCRIPT_INSCRIPTIONAL_PARTHIAN        = 125  # 'Prti'";
"USCRIPT_SAMARITAN                     = 126  # 'Samr'";
"USCRIPT_TAI_VIET                      = 127  # 'Tavt'";
"USCRIPT_MATHEMATICAL_NOTATION         = 128  # 'Zmth'";
"USCRIPT_SYMBOLS                       = 129  # 'Zsym'";
"USCRIPT_BAMUM                         = 130  # 'Bamu'";
"USCRIPT_LISU                          = 131  # 'Lisu'";
"USCRIPT_NAKHI_GEBA                    = 132  # 'Nkgb'";
"USCRIPT_OLD_SOUTH_ARABIAN             = 133  # 'Sarb'";
"USCRIPT_BASSA_VAH                     = 134  # 'Bass'";
"USCRIPT_DUPLOYAN                      = 135  # 'Dupl'";
"USCRIPT_ELBASAN                       = 136  # 'Elba'";
"USCRIPT_GRANTHA                       = 137  # 'Gran'";
"USCRIPT_KPELLE                        = 138  # 'Kpel'";
"USCRIPT_LOMA                          = 139  # 'Loma'";
"USCRIPT_MENDE                         = 140  # 'Mend'";
"USCRIPT_MEROITIC_CURSIVE              = 141  # 'Merc'";
"USCRIPT_OLD_NORTH_ARABIAN             = 142  # 'Narb'";
"USCRIPT_NABATAEAN                     = 143  # 'Nbat'";
"USCRIPT_PALMYRENE                     = 144  # 'Palm'";
"USCRIPT_KHUDAWADI                     = 145  # 'Sind'";
"USCRIPT_SINDHI                        = USCRIPT_KHUDAWADI,";
"USCRIPT_WARANG_CITI                   = 146  # 'Wara'";
"USCRIPT_AFAKA                         = 147  # 'Afak'";
"USCRIPT_JURCHEN                       = 148  # 'Jurc'";
"USCRIPT_MRO                           = 149  # 'Mroo'";
"USCRIPT_NUSHU                         = 150  # 'Nshu'";
"USCRIPT_SHARADA                       = 151  # 'Shrd'";
"USCRIPT_SORA_SOMPENG                  = 152  # 'Sora'";
"USCRIPT_TAKRI                         = 153  # 'Takr'";
"USCRIPT_TANGUT                        = 154  # 'Tang'";
"USCRIPT_WOLEAI                        = 155  # 'Wole'";
"USCRIPT_ANATOLIAN_HIEROGLYPHS         = 156  # 'Hluw'";
"USCRIPT_KHOJKI                        = 157  # 'Khoj'";
"USCRIPT_TIRHUTA                       = 158  # 'Tirh'";
"USCRIPT_CAUCASIAN_ALBANIAN            = 159  # 'Aghb'";
"USCRIPT_MAHAJANI                      = 160  # 'Mahj'";
"USCRIPT_AHOM                          = 161  # 'Ahom'";
"USCRIPT_HATRAN                        = 162  # 'Hatr'";
"USCRIPT_MODI                          = 163  # 'Modi'";
"USCRIPT_MULTANI                       = 164  # 'Mult'";
"USCRIPT_PAU_CIN_HAU                   = 165  # 'Pauc'";
"USCRIPT_SIDDHAM                       = 166  # 'Sidd'";
"USCRIPT_ADLAM                         = 167  # 'Adlm'";
"USCRIPT_BHAIKSUKI                     = 168  # 'Bhks'";
"USCRIPT_MARCHEN                       = 169  # 'Marc'";
"USCRIPT_NEWA                          = 170  # 'Newa'";
"USCRIPT_OSAGE                         = 171  # 'Osge'";
"USCRIPT_HAN_WITH_BOPOMOFO             = 172  # 'Hanb'";
"USCRIPT_JAMO                          = 173  # 'Jamo'";
"USCRIPT_SYMBOLS_EMOJI                 = 174  # 'Zsye'";
"USCRIPT_MASARAM_GONDI                 = 175  # 'Gonm'";
"USCRIPT_SOYOMBO                       = 176  # 'Soyo'";
"USCRIPT_ZANABAZAR_SQUARE              = 177  # 'Zanb'";
"USCRIPT_DOGRA                         = 178  # 'Dogr'";
"USCRIPT_GUNJALA_GONDI                 = 179  # 'Gong'";
"USCRIPT_MAKASAR                       = 180  # 'Maka'";
"USCRIPT_MEDEFAIDRIN                   = 181  # 'Medf'";
"USCRIPT_HANIFI_ROHINGYA               = 182  # 'Rohg'";
"USCRIPT_SOGDIAN                       = 183  # 'Sogd'";
"USCRIPT_OLD_SOGDIAN                   = 184  # 'Sogo'";
"USCRIPT_ELYMAIC                       = 185  # 'Elym'";
"USCRIPT_NYIAKENG_PUACHUE_HMONG        = 186  # 'Hmnp'";
"USCRIPT_NANDINAGARI                   = 187  # 'Nand'";
"USCRIPT_WANCHO                        = 188  # 'Wcho'";
"USCRIPT_CHORASMIAN                    = 189  # 'Chrs'";
"USCRIPT_DIVES_AKURU                   = 190  # 'Diak'";
"USCRIPT_KHITAN_SMALL_SCRIPT           = 191  # 'Kits'";
"USCRIPT_YEZIDI                        = 192  # 'Yezi'";
"";
"USCRIPT_CODE_LIMIT = 193";
"";
"scriptCodes = {";
"    USCRIPT_COMMON: 'Zyyy',";
"    USCRIPT_INHERITED: 'Zinh', # ""Code for inherited script"", for non-spacing combining marks; also Qaai";
"    USCRIPT_ARABIC: 'Arab',";
"    USCRIPT_ARMENIAN: 'Armn',";
"    USCRIPT_BENGALI: 'Beng',";
"    USCRIPT_BOPOMOFO: 'Bopo',";
"    USCRIPT_CHEROKEE: 'Cher',";
"    USCRIPT_COPTIC: 'Copt',";
"    USCRIPT_CYRILLIC: 'Cyrl',";
"    USCRIPT_DESERET: 'Dsrt',";
"    USCRIPT_DEVANAGARI: 'Deva',";
"    USCRIPT_ETHIOPIC: 'Ethi',";
"    USCRIPT_GEORGIAN: 'Geor',";
"    USCRIPT_GOTHIC: 'Goth',";
"    USCRIPT_GREEK: 'Grek',";
"    USCRIPT_GUJARATI: 'Gujr',";
"    USCRIPT_GURMUKHI: 'Guru',";
"    USCRIPT_HAN: 'Hani',";
"    USCRIPT_HANGUL: 'Hang',";
"    USCRIPT_HEBREW: 'Hebr',";
"    USCRIPT_HIRAGANA: 'Hira',";
"    USCRIPT_KANNADA: 'Knda',";
"    USCRIPT_KATAKANA: 'Kana',";
"    USCRIPT_KHMER: 'Khmr',";
"    USCRIPT_LAO: 'Laoo',";
"    USCRIPT_LATIN: 'Latn',";
"    USCRIPT_MALAYALAM: 'Mlym',";
"    USCRIPT_MONGOLIAN: 'Mong',";
"    USCRIPT_MYANMAR: 'Mymr',";
"    USCRIPT_OGHAM: 'Ogam',";
"    USCRIPT_OLD_ITALIC: 'Ital',";
"    USCRIPT_ORIYA: 'Orya',";
"    USCRIPT_RUNIC: 'Runr',";
"    USCRIPT_SINHALA: 'Sinh',";
"    USCRIPT_SYRIAC: 'Syrc',";
"    USCRIPT_TAMIL: 'Taml',";
"    USCRIPT_TELUGU: 'Telu',";
"    USCRIPT_THAANA: 'Thaa',";
"    USCRIPT_THAI: 'Thai',";
"    USCRIPT_TIBETAN: 'Tibt',";
"    USCRIPT_CANADIAN_ABORIGINAL: 'Cans',";
"    USCRIPT_UCAS: 'Cans',";
"    USCRIPT_YI: 'Yiii',";
"    ";
"    # New scripts in Unicode 3.2";
"    USCRIPT_TAGALOG: 'Tglg',";
"    USCRIPT_HANUNOO: 'Hano',";
"    USCRIPT_BUHID: 'Buhd',";
"    USCRIPT_TAGBANWA: 'Tagb',";
"    ";
"    # New scripts in Unicode 4";
"    USCRIPT_BRAILLE: 'Brai',";
"    USCRIPT_CYPRIOT: 'Cprt',";
"    USCRIPT_LIMBU: 'Limb',";
"    USCRIPT_LINEAR_B: 'Linb',";
"    USCRIPT_OSMANYA: 'Osma',";
"    USCRIPT_SHAVIAN: 'Shaw',";
"    USCRIPT_TAI_LE: 'Tale',";
"    USCRIPT_UGARITIC: 'Ugar',";
"    ";
"    # New scripts in Unicode 4.0.1";
"    USCRIPT_KATAKANA_OR_HIRAGANA: 'Hrkt',";
"    ";
"    # New scripts in Unicode 4.1";
"    USCRIPT_BUGINESE: 'Bugi',";
"    USCRIPT_GLAGOLITIC: 'Glag',";
"    USCRIPT_KHAROSHTHI: 'Khar',";
"    USCRIPT_SYLOTI_NAGRI: 'Sylo',";
"    USCRIPT_NEW_TAI_LUE: 'Talu',";
"    USCRIPT_TIFINAGH: 'Tfng',";
"    USCRIPT_OLD_PERSIAN: 'Xpeo',";
"    ";
"    # New script codes from Unicode and ISO 15924";
"    USCRIPT_BALINESE: 'Bali',";
"    USCRIPT_BATAK: 'Batk',";
"    USCRIPT_BLISSYMBOLS: 'Blis',";
"    USCRIPT_BRAHMI: 'Brah',";
"    USCRIPT_CHAM: 'Cham',";
"    USCRIPT_CIRTH: 'Cirt',";
"    USCRIPT_OLD_CHURCH_SLAVONIC_CYRILLIC: 'Cyrs',";
"    USCRIPT_DEMOTIC_EGYPTIAN: 'Egyd',";
"    USCRIPT_HIERATIC_EGYPTIAN: 'Egyh',";
"    USCRIPT_EGYPTIAN_HIEROGLYPHS: 'Egyp',";
"    USCRIPT_KHUTSURI: 'Geok',";
"    USCRIPT_SIMPLIFIED_HAN: 'Hans',";
"    USCRIPT_TRADITIONAL_HAN: 'Hant',";
"    USCRIPT_PAHAWH_HMONG: 'Hmng',";
"    USCRIPT_OLD_HUNGARIAN: 'Hung',";
"    USCRIPT_HARAPPAN_INDUS: 'Inds',";
"    USCRIPT_JAVANESE: 'Java',";
"    USCRIPT_KAYAH_LI: 'Kali',";
"    USCRIPT_LATIN_FRAKTUR: 'Latf',";
"    USCRIPT_LATIN_GAELIC: 'Latg',";
"    USCRIPT_LEPCHA: 'Lepc',";
"    USCRIPT_LINEAR_A: 'Lina',";
"    USCRIPT_MANDAIC: 'Mand',";
"    USCRIPT_MANDAEAN: 'Mand',";
"    USCRIPT_MAYAN_HIEROGLYPHS: 'Maya',";
"    USCRIPT_MEROITIC_HIEROGLYPHS: 'Mero',";
"    USCRIPT_MEROITIC: 'Mero',";
"    USCRIPT_NKO: 'Nkoo',";
"    USCRIPT_ORKHON: 'Orkh',";
"    USCRIPT_OLD_PERMIC: 'Perm',";
"    USCRIPT_PHAGS_PA: 'Phag',";
"    USCRIPT_PHOENICIAN: 'Phnx',";
"    USCRIPT_MIAO: 'Plrd',";
"    USCRIPT_PHONETIC_POLLARD: 'Plrd',";
"    USCRIPT_RONGORONGO: 'Roro',";
"    USCRIPT_SARATI: 'Sara',";
"    USCRIPT_ESTRANGELO_SYRIAC: 'Syre',";
"    USCRIPT_WESTERN_SYRIAC: 'Syrj',";
"    USCRIPT_EASTERN_SYRIAC: 'Syrn',";
"    USCRIPT_TENGWAR: 'Teng',";
"    USCRIPT_VAI: 'Vaii',";
"    USCRIPT_VISIBLE_SPEECH: 'Visp',";
"    USCRIPT_CUNEIFORM: 'Xsux',";
"    USCRIPT_UNWRITTEN_LANGUAGES: 'Zxxx',";
"    USCRIPT_UNKNOWN: 'Zzzz', # Unknown=""Code for uncoded script"", for unassigned code points";
"    USCRIPT_CARIAN: 'Cari',";
"    USCRIPT_JAPANESE: 'Jpan',";
"    USCRIPT_LANNA: 'Lana',";
"    USCRIPT_LYCIAN: 'Lyci',";
"    USCRIPT_LYDIAN: 'Lydi',";
"    USCRIPT_OL_CHIKI: 'Olck',";
"    USCRIPT_REJANG: 'Rjng',";
"    USCRIPT_SAURASHTRA: 'Saur',";
"    USCRIPT_SIGN_WRITING: 'Sgnw',";
"    USCRIPT_SUNDANESE: 'Sund',";
"    USCRIPT_MOON: 'Moon',";
"    USCRIPT_MEITEI_MAYEK: 'Mtei',";
"    USCRIPT_IMPERIAL_ARAMAIC: 'Armi',";
"    USCRIPT_AVESTAN: 'Avst',";
"    USCRIPT_CHAKMA: 'Cakm',";
"    USCRIPT_KOREAN: 'Kore',";
"    USCRIPT_KAITHI: 'Kthi',";
"    USCRIPT_MANICHAEAN: 'Mani',";
"    USCRIPT_INSCRIPTIONAL_PAHLAVI: 'Phli',";
"    USCRIPT_PSALTER_PAHLAVI: 'Phlp',";
"    USCRIPT_BOOK_PAHLAVI: 'Phlv',";
"    USCRIPT_INSCRIPTIONAL_PARTHIAN: 'Prti',";
"    USCRIPT_SAMARITAN: 'Samr',";
"    USCRIPT_TAI_VIET: 'Tavt',";
"    USCRIPT_MATHEMATICAL_NOTATION: 'Zmth',";
"    USCRIPT_SYMBOLS: 'Zsym',";
"    USCRIPT_BAMUM: 'Bamu',";
"    USCRIPT_LISU: 'Lisu',";
"    USCRIPT_NAKHI_GEBA: 'Nkgb',";
"    USCRIPT_OLD_SOUTH_ARABIAN: 'Sarb',";
"    USCRIPT_BASSA_VAH: 'Bass',";
"    USCRIPT_DUPLOYAN: 'Dupl',";
"    USCRIPT_ELBASAN: 'Elba',";
"    USCRIPT_GRANTHA: 'Gran',";
"    USCRIPT_KPELLE: 'Kpel',";
"    USCRIPT_LOMA: 'Loma',";
"    USCRIPT_MENDE: 'Mend',";
"    USCRIPT_MEROITIC_CURSIVE: 'Merc',";
"    USCRIPT_OLD_NORTH_ARABIAN: 'Narb',";
"    USCRIPT_NABATAEAN: 'Nbat',";
"    USCRIPT_PALMYRENE: 'Palm',";
"    USCRIPT_KHUDAWADI: 'Sind',";
"    USCRIPT_SINDHI: 'Sind',";
"    USCRIPT_WARANG_CITI: 'Wara',";
"    USCRIPT_AFAKA: 'Afak',";
"    USCRIPT_JURCHEN: 'Jurc',";
"    USCRIPT_MRO: 'Mroo',";
"    USCRIPT_NUSHU: 'Nshu',";
"    USCRIPT_SHARADA: 'Shrd',";
"    USCRIPT_SORA_SOMPENG: 'Sora',";
"    USCRIPT_TAKRI: 'Takr',";
"    USCRIPT_TANGUT: 'Tang',";
"    USCRIPT_WOLEAI: 'Wole',";
"    USCRIPT_ANATOLIAN_HIEROGLYPHS: 'Hluw',";
"    USCRIPT_KHOJKI: 'Khoj',";
"    USCRIPT_TIRHUTA: 'Tirh',";
"    USCRIPT_CAUCASIAN_ALBANIAN: 'Aghb',";
"    USCRIPT_MAHAJANI: 'Mahj',";
"    USCRIPT_AHOM: 'Ahom',";
"    USCRIPT_HATRAN: 'Hatr',";
"    USCRIPT_MODI: 'Modi',";
"    USCRIPT_MULTANI: 'Mult',";
"    USCRIPT_PAU_CIN_HAU: 'Pauc',";
"    USCRIPT_SIDDHAM: 'Sidd',";
"    USCRIPT_ADLAM: 'Adlm',";
"    USCRIPT_BHAIKSUKI: 'Bhks',";
"    USCRIPT_MARCHEN: 'Marc',";
"    USCRIPT_NEWA: 'Newa',";
"    USCRIPT_OSAGE: 'Osge',";
"    USCRIPT_HAN_WITH_BOPOMOFO: 'Hanb',";
"    USCRIPT_JAMO: 'Jamo',";
"    USCRIPT_SYMBOLS_EMOJI: 'Zsye',";
"    USCRIPT_MASARAM_GONDI: 'Gonm',";
"    USCRIPT_SOYOMBO: 'Soyo',";
"    USCRIPT_ZANABAZAR_SQUARE: 'Zanb',";
"    USCRIPT_DOGRA: 'Dogr',";
"    USCRIPT_GUNJALA_GONDI: 'Gong',";
"    USCRIPT_MAKASAR: 'Maka',";
"    USCRIPT_MEDEFAIDRIN: 'Medf',";
"    USCRIPT_HANIFI_ROHINGYA: 'Rohg',";
"    USCRIPT_SOGDIAN: 'Sogd',";
"    USCRIPT_OLD_SOGDIAN: 'Sogo',";
"    USCRIPT_ELYMAIC: 'Elym',";
"    USCRIPT_NYIAKENG_PUACHUE_HMONG: 'Hmnp',";
"    USCRIPT_NANDINAGARI: 'Nand',";
"    USCRIPT_WANCHO: 'Wcho',";
"    USCRIPT_CHORASMIAN: 'Chrs',";
"    USCRIPT_DIVES_AKURU: 'Diak',";
"    USCRIPT_KHITAN_SMALL_SCRIPT: 'Kits',";
"    USCRIPT_YEZIDI: 'Yezi',";
"}"].

(** UCDTypeDictionaries.py:1-913 *)
Definition UCDTypeDictionaries_lines : list string := [
"""""""/";
"UCDTypeDictionaries.py, based on ppucd.txt from ICU";
"";
"Generated by UCDReader.py on August 26, 2021 at 11:27:13 AM HST";
"""""""";
"";
"from .uchar_h import *";
"from .uscript_h import *";
"";
"bidiClassNames = {";
"    U_RIGHT_TO_LEFT_ARABIC: ""AL"",";
"    U_ARABIC_NUMBER: ""AN"",";
"    U_BLOCK_SEPARATOR: ""B"",";
"    U_BOUNDARY_NEUTRAL: ""BN"",";
"    U_COMMON_NUMBER_SEPARATOR: ""CS"",";
"    U_EUROPEAN_NUMBER: ""EN"",";
"    U_EUROPEAN_NUMBER_SEPARATOR: ""ES"",";
"    U_EUROPEAN_NUMBER_TERMINATOR: ""ET"",";
"    U_FIRST_STRONG_ISOLATE: ""FSI"",";
"    U_LEFT_TO_RIGHT: ""L"",";
"    U_LEFT_TO_RIGHT_EMBEDDING: ""LRE"",";
"    U_LEFT_TO_RIGHT_ISOLATE: ""LRI"",";
"    U_LEFT_TO_RIGHT_OVERRIDE: ""LRO"",";
"    U_DIR_NON_SPACING_MARK: ""NSM"",";
"    U_OTHER_NEUTRAL: ""ON"",";
"    U_POP_DIRECTIONAL_FORMAT: ""PDF"",";
"    U_POP_DIRECTIONAL_ISOLATE: ""PDI"",";
"    U_RIGHT_TO_LEFT: ""R"",";
"    U_RIGHT_TO_LEFT_EMBEDDING: ""RLE"",";
"    U_RIGHT_TO_LEFT_ISOLATE: ""RLI"",";
"    U_RIGHT_TO_LEFT_OVERRIDE: ""RLO"",";
"    U_SEGMENT_SEPARATOR: ""S"",";
"    U_WHITE_SPACE_NEUTRAL: ""WS""";
"}";
"";
"blockNames = {";
"    UBLOCK_BASIC_LATIN: ""ASCII"",";
"    UBLOCK_ADLAM: ""Adlam"",";
"    UBLOCK_AEGEAN_NUMBERS: ""Aegean Numbers"",";
"    UBLOCK_AHOM: ""Ahom"",";
"    UBLOCK_ALCHEMICAL_SYMBOLS: ""Alchemical"",";
"    UBLOCK_ALPHABETIC_PRESENTATION_FORMS: ""Alphabetic PF"",";
"    UBLOCK_ANATOLIAN_HIEROGLYPHS: ""Anatolian Hieroglyphs"",";
"    UBLOCK_ANCIENT_GREEK_MUSICAL_NOTATION: ""Ancient Greek Music"",";
"    UBLOCK_ANCIENT_GREEK_NUMBERS: ""Ancient Greek Numbers"",";
"    UBLOCK_ANCIENT_SYMBOLS: ""Ancient Symbols"",";
"    UBLOCK_ARABIC: ""Arabic"",";
"    UBLOCK_ARABIC_EXTENDED_A: ""Arabic Ext A"",";
"    UBLOCK_ARABIC_MATHEMATICAL_ALPHABETIC_SYMBOLS: ""Arabic Math"",";
"    UBLOCK_ARABIC_PRESENTATION_FORMS_A: ""Arabic PF A"",";
"    UBLOCK_ARABIC_PRESENTATION_FORMS_B: ""Arabic PF B"",";
"    UBLOCK_ARABIC_SUPPLEMENT: ""Arabic Sup"",";
"    UBLOCK_ARMENIAN: ""Armenian"",";
"    UBLOCK_ARROWS: ""Arrows"",";
"    UBLOCK_AVESTAN: ""Avestan"",";
"    UBLOCK_BALINESE: ""Balinese"",";
"    UBLOCK_BAMUM: ""Bamum"",";
"    UBLOCK_BAMUM_SUPPLEMENT: ""Bamum Sup"",";
"    UBLOCK_BASSA_VAH: ""Bassa Vah"",";
"    UBLOCK_BATAK: ""Batak"",";
"    UBLOCK_BENGALI: ""Bengali"",";
"    UBLOCK_BHAIKSUKI: ""Bhaiksuki"",";
"    UBLOCK_BLOCK_ELEMENTS: ""Block Elements"",";
"    UBLOCK_BOPOMOFO: ""Bopomofo"",";
"    UBLOCK_BOPOMOFO_EXTENDED: ""Bopomofo Ext"",";
"    UBLOCK_BOX_DRAWING: ""Box Drawing"",";
"    UBLOCK_BRAHMI: ""Brahmi"",";
"    UBLOCK_BRAILLE_PATTERNS: ""Braille"",";
"    UBLOCK_BUGINESE: ""Buginese"",";
"    UBLOCK_BUHID: ""Buhid"",";
"    UBLOCK_BYZANTINE_MUSICAL_SYMBOLS: ""Byzantine Music"",";
"    UBLOCK_CJK_UNIFIED_IDEOGRAPHS: ""CJK"",";
"    UBLOCK_CJK_COMPATIBILITY: ""CJK Compat"",";
"    UBLOCK_CJK_COMPATIBILITY_FORMS: ""CJK Compat Forms"",";
"    UBLOCK_CJK_COMPATIBILITY_IDEOGRAPHS: ""CJK Compat Ideographs"",";
"    UBLOCK_CJK_COMPATIBILITY_IDEOGRAPHS_SUPPLEMENT: ""CJK Compat Ideographs Sup"",";
"    UBLOCK_CJK_UNIFIED_IDEOGRAPHS_EXTENSION_A: ""CJK Ext A"",";
"    UBLOCK_CJK_UNIFIED_IDEOGRAPHS_EXTENSION_B: ""CJK Ext B"",";
"    UBLOCK_CJK_UNIFIED_IDEOGRAPHS_EXTENSION_C: ""CJK Ext C"",";
"    UBLOCK_CJK_UNIFIED_IDEOGRAPHS_EXTENSION_D: ""CJK Ext D"",";
"    UBLOCK_CJK_UNIFIED_IDEOGRAPHS_EXTENSION_E: ""CJK Ext E"",";
"    UBLOCK_CJK_UNIFIED_IDEOGRAPHS_EXTENSION_F: ""CJK Ext F"",";
"    UBLOCK_CJK_UNIFIED_IDEOGRAPHS_EXTENSION_G: ""CJK Ext G"",";
"    UBLOCK_CJK_RADICALS_SUPPLEMENT: ""CJK Radicals Sup"",";
"    UBLOCK_CJK_STROKES: ""CJK Strokes"",";
"    UBLOCK_CJK_SYMBOLS_AND_PUNCTUATION: ""CJK Symbols"",";
"    UBLOCK_CARIAN: ""Carian"",";
"    UBLOCK_CAUCASIAN_ALBANIAN: ""Caucasian Albanian"",";
"    UBLOCK_CHAKMA: ""Chakma"",";
"    UBLOCK_CHAM: ""Cham"",";
"    UBLOCK_CHEROKEE: ""Cherokee"",";
"    UBLOCK_CHEROKEE_SUPPLEMENT: ""Cherokee Sup"",";
"    UBLOCK_CHESS_SYMBOLS: ""Chess Symbols"",";
"    UBLOCK_CHORASMIAN: ""Chorasmian"",";
"    UBLOCK_HANGUL_COMPATIBILITY_JAMO: ""Compat Jamo"",";
"    UBLOCK_CONTROL_PICTURES: ""Control Pictures"",";
"    UBLOCK_COPTIC: ""Coptic"",";
"    UBLOCK_COPTIC_EPACT_NUMBERS: ""Coptic Epact Numbers"",";
"    UBLOCK_COUNTING_ROD_NUMERALS: ""Counting Rod"",";
"    UBLOCK_CUNEIFORM: ""Cuneiform"",";
"    UBLOCK_CUNEIFORM_NUMBERS_AND_PUNCTUATION: ""Cuneiform Numbers"",";
"    UBLOCK_CURRENCY_SYMBOLS: ""Currency Symbols"",";
"    UBLOCK_CYPRIOT_SYLLABARY: ""Cypriot Syllabary"",";
"    UBLOCK_CYRILLIC: ""Cyrillic"",";
"    UBLOCK_CYRILLIC_EXTENDED_A: ""Cyrillic Ext A"",";
"    UBLOCK_CYRILLIC_EXTENDED_B: ""Cyrillic Ext B"",";
"    UBLOCK_CYRILLIC_EXTENDED_C: ""Cyrillic Ext C"",";
"    UBLOCK_CYRILLIC_SUPPLEMENT: ""Cyrillic Sup"",";
"    UBLOCK_DESERET: ""Deseret"",";
"    UBLOCK_DEVANAGARI: ""Devanagari"",";
"    UBLOCK_DEVANAGARI_EXTENDED: ""Devanagari Ext"",";
"    UBLOCK_COMBINING_DIACRITICAL_MARKS: ""Diacriticals"",";
"    UBLOCK_COMBINING_DIACRITICAL_MARKS_EXTENDED: ""Diacriticals Ext"",";
"    UBLOCK_COMBINING_MARKS_FOR_SYMBOLS: ""Diacriticals For Symbols"",";
"    UBLOCK_COMBINING_DIACRITICAL_MARKS_SUPPLEMENT: ""Diacriticals Sup"",";
"    UBLOCK_DINGBATS: ""Dingbats"",";
"    UBLOCK_DIVES_AKURU: ""Dives Akuru"",";
"    UBLOCK_DOGRA: ""Dogra"",";
"    UBLOCK_DOMINO_TILES: ""Domino"",";
"    UBLOCK_DUPLOYAN: ""Duployan"",";
"    UBLOCK_EARLY_DYNASTIC_CUNEIFORM: ""Early Dynastic Cuneiform"",";
"    UBLOCK_EGYPTIAN_HIEROGLYPH_FORMAT_CONTROLS: ""Egyptian Hieroglyph Format Controls"",";
"    UBLOCK_EGYPTIAN_HIEROGLYPHS: ""Egyptian Hieroglyphs"",";
"    UBLOCK_ELBASAN: ""Elbasan"",";
"    UBLOCK_ELYMAIC: ""Elymaic"",";
"    UBLOCK_EMOTICONS: ""Emoticons"",";
"    UBLOCK_ENCLOSED_ALPHANUMERICS: ""Enclosed Alphanum"",";
"    UBLOCK_ENCLOSED_ALPHANUMERIC_SUPPLEMENT: ""Enclosed Alphanum Sup"",";
"    UBLOCK_ENCLOSED_CJK_LETTERS_AND_MONTHS: ""Enclosed CJK"",";
"    UBLOCK_ENCLOSED_IDEOGRAPHIC_SUPPLEMENT: ""Enclosed Ideographic Sup"",";
"    UBLOCK_ETHIOPIC: ""Ethiopic"",";
"    UBLOCK_ETHIOPIC_EXTENDED: ""Ethiopic Ext"",";
"    UBLOCK_ETHIOPIC_EXTENDED_A: ""Ethiopic Ext A"",";
"    UBLOCK_ETHIOPIC_SUPPLEMENT: ""Ethiopic Sup"",";
"    UBLOCK_GEOMETRIC_SHAPES: ""Geometric Shapes"",";
"    UBLOCK_GEOMETRIC_SHAPES_EXTENDED: ""Geometric Shapes Ext"",";
"    UBLOCK_GEORGIAN: ""Georgian"",";
"    UBLOCK_GEORGIAN_EXTENDED: ""Georgian Ext"",";
"    UBLOCK_GEORGIAN_SUPPLEMENT: ""Georgian Sup"",";
"    UBLOCK_GLAGOLITIC: ""Glagolitic"",";
"    UBLOCK_GLAGOLITIC_SUPPLEMENT: ""Glagolitic Sup"",";
"    UBLOCK_GOTHIC: ""Gothic"",";
"    UBLOCK_GRANTHA: ""Grantha"",";
"    UBLOCK_GREEK: ""Greek"",";
"    UBLOCK_GREEK_EXTENDED: ""Greek Ext"",";
"    UBLOCK_GUJARATI: ""Gujarati"",";
"    UBLOCK_GUNJALA_GONDI: ""Gunjala Gondi"",";
"    UBLOCK_GURMUKHI: ""Gurmukhi"",";
"    UBLOCK_HALFWIDTH_AND_FULLWIDTH_FORMS: ""Half And Full Forms"",";
"    UBLOCK_COMBINING_HALF_MARKS: ""Half Marks"",";
"    UBLOCK_HANGUL_SYLLABLES: ""Hangul"",";
"    UBLOCK_HANIFI_ROHINGYA: ""Hanifi Rohingya"",";
"    UBLOCK_HANUNOO: ""Hanunoo"",";
"    UBLOCK_HATRAN: ""Hatran"",";
"    UBLOCK_HEBREW: ""Hebrew"",";
"    UBLOCK_HIGH_PRIVATE_USE_SURROGATES: ""High PU Surrogates"",";
"    UBLOCK_HIGH_SURROGATES: ""High Surrogates"",";
"    UBLOCK_HIRAGANA: ""Hiragana"",";
"    UBLOCK_IDEOGRAPHIC_DESCRIPTION_CHARACTERS: ""IDC"",";
"    UBLOCK_IPA_EXTENSIONS: ""IPA Ext"",";
"    UBLOCK_IDEOGRAPHIC_SYMBOLS_AND_PUNCTUATION: ""Ideographic Symbols"",";
"    UBLOCK_IMPERIAL_ARAMAIC: ""Imperial Aramaic"",";
"    UBLOCK_COMMON_INDIC_NUMBER_FORMS: ""Indic Number Forms"",";
"    UBLOCK_INDIC_SIYAQ_NUMBERS: ""Indic Siyaq Numbers"",";
"    UBLOCK_INSCRIPTIONAL_PAHLAVI: ""Inscriptional Pahlavi"",";
"    UBLOCK_INSCRIPTIONAL_PARTHIAN: ""Inscriptional Parthian"",";
"    UBLOCK_HANGUL_JAMO: ""Jamo"",";
"    UBLOCK_HANGUL_JAMO_EXTENDED_A: ""Jamo Ext A"",";
"    UBLOCK_HANGUL_JAMO_EXTENDED_B: ""Jamo Ext B"",";
"    UBLOCK_JAVANESE: ""Javanese"",";
"    UBLOCK_KAITHI: ""Kaithi"",";
"    UBLOCK_KANA_EXTENDED_A: ""Kana Ext A"",";
"    UBLOCK_KANA_SUPPLEMENT: ""Kana Sup"",";
"    UBLOCK_KANBUN: ""Kanbun"",";
"    UBLOCK_KANGXI_RADICALS: ""Kangxi"",";
"    UBLOCK_KANNADA: ""Kannada"",";
"    UBLOCK_KATAKANA: ""Katakana"",";
"    UBLOCK_KATAKANA_PHONETIC_EXTENSIONS: ""Katakana Ext"",";
"    UBLOCK_KAYAH_LI: ""Kayah Li"",";
"    UBLOCK_KHAROSHTHI: ""Kharoshthi"",";
"    UBLOCK_KHITAN_SMALL_SCRIPT: ""Khitan Small Script"",";
"    UBLOCK_KHMER: ""Khmer"",";
"    UBLOCK_KHMER_SYMBOLS: ""Khmer Symbols"",";
"    UBLOCK_KHOJKI: ""Khojki"",";
"    UBLOCK_KHUDAWADI: ""Khudawadi"",";
"    UBLOCK_LAO: ""Lao"",";
"    UBLOCK_LATIN_1_SUPPLEMENT: ""Latin 1 Sup"",";
"    UBLOCK_LATIN_EXTENDED_A: ""Latin Ext A"",";
"    UBLOCK_LATIN_EXTENDED_ADDITIONAL: ""Latin Ext Additional"",";
"    UBLOCK_LATIN_EXTENDED_B: ""Latin Ext B"",";
"    UBLOCK_LATIN_EXTENDED_C: ""Latin Ext C"",";
"    UBLOCK_LATIN_EXTENDED_D: ""Latin Ext D"",";
"    UBLOCK_LATIN_EXTENDED_E: ""Latin Ext E"",";
"    UBLOCK_LEPCHA: ""Lepcha"",";
"    UBLOCK_LETTERLIKE_SYMBOLS: ""Letterlike Symbols"",";
"    UBLOCK_LIMBU: ""Limbu"",";
"    UBLOCK_LINEAR_A: ""Linear A"",";
"    UBLOCK_LINEAR_B_IDEOGRAMS: ""Linear B Ideograms"",";
"    UBLOCK_LINEAR_B_SYLLABARY: ""Linear B Syllabary"",";
"    UBLOCK_LISU: ""Lisu"",";
"    UBLOCK_LISU_SUPPLEMENT: ""Lisu Sup"",";
"    UBLOCK_LOW_SURROGATES: ""Low Surrogates"",";
"    UBLOCK_LYCIAN: ""Lycian"",";
"    UBLOCK_LYDIAN: ""Lydian"",";
"    UBLOCK_MAHAJANI: ""Mahajani"",";
"    UBLOCK_MAHJONG_TILES: ""Mahjong"",";
"    UBLOCK_MAKASAR: ""Makasar"",";
"    UBLOCK_MALAYALAM: ""Malayalam"",";
"    UBLOCK_MANDAIC: ""Mandaic"",";
"    UBLOCK_MANICHAEAN: ""Manichaean"",";
"    UBLOCK_MARCHEN: ""Marchen"",";
"    UBLOCK_MASARAM_GONDI: ""Masaram Gondi"",";
"    UBLOCK_MATHEMATICAL_ALPHANUMERIC_SYMBOLS: ""Math Alphanum"",";
"    UBLOCK_MATHEMATICAL_OPERATORS: ""Math Operators"",";
"    UBLOCK_MAYAN_NUMERALS: ""Mayan Numerals"",";
"    UBLOCK_MEDEFAIDRIN: ""Medefaidrin"",";
"    UBLOCK_MEETEI_MAYEK: ""Meetei Mayek"",";
"    UBLOCK_MEETEI_MAYEK_EXTENSIONS: ""Meetei Mayek Ext"",";
"    UBLOCK_MENDE_KIKAKUI: ""Mende Kikakui"",";
"    UBLOCK_MEROITIC_CURSIVE: ""Meroitic Cursive"",";
"    UBLOCK_MEROITIC_HIEROGLYPHS: ""Meroitic Hieroglyphs"",";
"    UBLOCK_MIAO: ""Miao"",";
"    UBLOCK_MISCELLANEOUS_SYMBOLS_AND_ARROWS: ""Misc Arrows"",";
"    UBLOCK_MISCELLANEOUS_MATHEMATICAL_SYMBOLS_A: ""Misc Math Symbols A"",";
"    UBLOCK_MISCELLANEOUS_MATHEMATICAL_SYMBOLS_B: ""Misc Math Symbols B"",";
"    UBLOCK_MISCELLANEOUS_SYMBOLS_AND_PICTOGRAPHS: ""Misc Pictographs"",";
"    UBLOCK_MISCELLANEOUS_SYMBOLS: ""Misc Symbols"",";
"    UBLOCK_MISCELLANEOUS_TECHNICAL: ""Misc Technical"",";
"    UBLOCK_MODI: ""Modi"",";
"    UBLOCK_SPACING_MODIFIER_LETTERS: ""Modifier Letters"",";
"    UBLOCK_MODIFIER_TONE_LETTERS: ""Modifier Tone Letters"",";
"    UBLOCK_MONGOLIAN: ""Mongolian"",";
"    UBLOCK_MONGOLIAN_SUPPLEMENT: ""Mongolian Sup"",";
"    UBLOCK_MRO: ""Mro"",";
"    UBLOCK_MULTANI: ""Multani"",";
"    UBLOCK_MUSICAL_SYMBOLS: ""Music"",";
"    UBLOCK_MYANMAR: ""Myanmar"",";
"    UBLOCK_MYANMAR_EXTENDED_A: ""Myanmar Ext A"",";
"    UBLOCK_MYANMAR_EXTENDED_B: ""Myanmar Ext B"",";
"    UBLOCK_NO_BLOCK: ""NB"",";
"    UBLOCK_NKO: ""NKo"",";
"    UBLOCK_NABATAEAN: ""Nabataean"",";
"    UBLOCK_NANDINAGARI: ""Nandinagari"",";
"    UBLOCK_NEW_TAI_LUE: ""New Tai Lue"",";
"    UBLOCK_NEWA: ""Newa"",";
"    UBLOCK_NUMBER_FORMS: ""Number Forms"",";
"    UBLOCK_NUSHU: ""Nushu"",";
"    UBLOCK_NYIAKENG_PUACHUE_HMONG: ""Nyiakeng Puachue Hmong"",";
"    UBLOCK_OPTICAL_CHARACTER_RECOGNITION: ""OCR"",";
"    UBLOCK_OGHAM: ""Ogham"",";
"    UBLOCK_OL_CHIKI: ""Ol Chiki"",";
"    UBLOCK_OLD_HUNGARIAN: ""Old Hungarian"",";
"    UBLOCK_OLD_ITALIC: ""Old Italic"",";
"    UBLOCK_OLD_NORTH_ARABIAN: ""Old North Arabian"",";
"    UBLOCK_OLD_PERMIC: ""Old Permic"",";
"    UBLOCK_OLD_PERSIAN: ""Old Persian"",";
"    UBLOCK_OLD_SOGDIAN: ""Old Sogdian"",";
"    UBLOCK_OLD_SOUTH_ARABIAN: ""Old South Arabian"",";
"    UBLOCK_OLD_TURKIC: ""Old Turkic"",";
"    UBLOCK_ORIYA: ""Oriya"",";
"    UBLOCK_ORNAMENTAL_DINGBATS: ""Ornamental Dingbats"",";
"    UBLOCK_OSAGE: ""Osage"",";
"    UBLOCK_OSMANYA: ""Osmanya"",";
"    UBLOCK_OTTOMAN_SIYAQ_NUMBERS: ""Ottoman Siyaq Numbers"",";
"    UBLOCK_PRIVATE_USE_AREA: ""PUA"",";
"    UBLOCK_PAHAWH_HMONG: ""Pahawh Hmong"",";
"    UBLOCK_PALMYRENE: ""Palmyrene"",";
"    UBLOCK_PAU_CIN_HAU: ""Pau Cin Hau"",";
"    UBLOCK_PHAGS_PA: ""Phags Pa"",";
"    UBLOCK_PHAISTOS_DISC: ""Phaistos"",";
"    UBLOCK_PHOENICIAN: ""Phoenician"",";
"    UBLOCK_PHONETIC_EXTENSIONS: ""Phonetic Ext"",";
"    UBLOCK_PHONETIC_EXTENSIONS_SUPPLEMENT: ""Phonetic Ext Sup"",";
"    UBLOCK_PLAYING_CARDS: ""Playing Cards"",";
"    UBLOCK_PSALTER_PAHLAVI: ""Psalter Pahlavi"",";
"    UBLOCK_GENERAL_PUNCTUATION: ""Punctuation"",";
"    UBLOCK_REJANG: ""Rejang"",";
"    UBLOCK_RUMI_NUMERAL_SYMBOLS: ""Rumi"",";
"    UBLOCK_RUNIC: ""Runic"",";
"    UBLOCK_SAMARITAN: ""Samaritan"",";
"    UBLOCK_SAURASHTRA: ""Saurashtra"",";
"    UBLOCK_SHARADA: ""Sharada"",";
"    UBLOCK_SHAVIAN: ""Shavian"",";
"    UBLOCK_SHORTHAND_FORMAT_CONTROLS: ""Shorthand Format Controls"",";
"    UBLOCK_SIDDHAM: ""Siddham"",";
"    UBLOCK_SINHALA: ""Sinhala"",";
"    UBLOCK_SINHALA_ARCHAIC_NUMBERS: ""Sinhala Archaic Numbers"",";
"    UBLOCK_SMALL_FORM_VARIANTS: ""Small Forms"",";
"    UBLOCK_SMALL_KANA_EXTENSION: ""Small Kana Ext"",";
"    UBLOCK_SOGDIAN: ""Sogdian"",";
"    UBLOCK_SORA_SOMPENG: ""Sora Sompeng"",";
"    UBLOCK_SOYOMBO: ""Soyombo"",";
"    UBLOCK_SPECIALS: ""Specials"",";
"    UBLOCK_SUNDANESE: ""Sundanese"",";
"    UBLOCK_SUNDANESE_SUPPLEMENT: ""Sundanese Sup"",";
"    UBLOCK_SUPPLEMENTAL_ARROWS_A: ""Sup Arrows A"",";
"    UBLOCK_SUPPLEMENTAL_ARROWS_B: ""Sup Arrows B"",";
"    UBLOCK_SUPPLEMENTAL_ARROWS_C: ""Sup Arrows C"",";
"    UBLOCK_SUPPLEMENTAL_MATHEMATICAL_OPERATORS: ""Sup Math Operators"",";
"    UBLOCK_SUPPLEMENTARY_PRIVATE_USE_AREA_A: ""Sup PUA A"",";
"    UBLOCK_SUPPLEMENTARY_PRIVATE_USE_AREA_B: ""Sup PUA B"",";
"    UBLOCK_SUPPLEMENTAL_PUNCTUATION: ""Sup Punctuation"",";
"    UBLOCK_SUPPLEMENTAL_SYMBOLS_AND_PICTOGRAPHS: ""Sup Symbols And Pictographs"",";
"    UBLOCK_SUPERSCRIPTS_AND_SUBSCRIPTS: ""Super And Sub"",";
"    UBLOCK_SUTTON_SIGNWRITING: ""Sutton SignWriting"",";
"    UBLOCK_SYLOTI_NAGRI: ""Syloti Nagri"",";
"    UBLOCK_SYMBOLS_AND_PICTOGRAPHS_EXTENDED_A: ""Symbols And Pictographs Ext A"",";
"    UBLOCK_SYMBOLS_FOR_LEGACY_COMPUTING: ""Symbols For Legacy Computing"",";
"    UBLOCK_SYRIAC: ""Syriac"",";
"    UBLOCK_SYRIAC_SUPPLEMENT: ""Syriac Sup"",";
"    UBLOCK_TAGALOG: ""Tagalog"",";
"    UBLOCK_TAGBANWA: ""Tagbanwa"",";
"    UBLOCK_TAGS: ""Tags"",";
"    UBLOCK_TAI_LE: ""Tai Le"",";
"    UBLOCK_TAI_THAM: ""Tai Tham"",";
"    UBLOCK_TAI_VIET: ""Tai Viet"",";
"    UBLOCK_TAI_XUAN_JING_SYMBOLS: ""Tai Xuan Jing"",";
"    UBLOCK_TAKRI: ""Takri"",";
"    UBLOCK_TAMIL: ""Tamil"",";
"    UBLOCK_TAMIL_SUPPLEMENT: ""Tamil Sup"",";
"    UBLOCK_TANGUT: ""Tangut"",";
"    UBLOCK_TANGUT_COMPONENTS: ""Tangut Components"",";
"    UBLOCK_TANGUT_SUPPLEMENT: ""Tangut Sup"",";
"    UBLOCK_TELUGU: ""Telugu"",";
"    UBLOCK_THAANA: ""Thaana"",";
"    UBLOCK_THAI: ""Thai"",";
"    UBLOCK_TIBETAN: ""Tibetan"",";
"    UBLOCK_TIFINAGH: ""Tifinagh"",";
"    UBLOCK_TIRHUTA: ""Tirhuta"",";
"    UBLOCK_TRANSPORT_AND_MAP_SYMBOLS: ""Transport And Map"",";
"    UBLOCK_UNIFIED_CANADIAN_ABORIGINAL_SYLLABICS: ""UCAS"",";
"    UBLOCK_UNIFIED_CANADIAN_ABORIGINAL_SYLLABICS_EXTENDED: ""UCAS Ext"",";
"    UBLOCK_UGARITIC: ""Ugaritic"",";
"    UBLOCK_VARIATION_SELECTORS: ""VS"",";
"    UBLOCK_VARIATION_SELECTORS_SUPPLEMENT: ""VS Sup"",";
"    UBLOCK_VAI: ""Vai"",";
"    UBLOCK_VEDIC_EXTENSIONS: ""Vedic Ext"",";
"    UBLOCK_VERTICAL_FORMS: ""Vertical Forms"",";
"    UBLOCK_WANCHO: ""Wancho"",";
"    UBLOCK_WARANG_CITI: ""Warang Citi"",";
"    UBLOCK_YEZIDI: ""Yezidi"",";
"    UBLOCK_YI_RADICALS: ""Yi Radicals"",";
"    UBLOCK_YI_SYLLABLES: ""Yi Syllables"",";
"    UBLOCK_YIJING_HEXAGRAM_SYMBOLS: ""Yijing"",";
"    UBLOCK_ZANABAZAR_SQUARE: ""Zanabazar Square""";
"}";
"";
"decompositionTypeNames = {";
"    U_DT_CANONICAL: ""can"",";
"    U_DT_COMPAT: ""com"",";
"    U_DT_CIRCLE: ""enc"",";
"    U_DT_FINAL: ""fin"",";
"    U_DT_FONT: ""font"",";
"    U_DT_FRACTION: ""fra"",";
"    U_DT_INITIAL: ""init"",";
"    U_DT_ISOLATED: ""iso"",";
"    U_DT_MEDIAL: ""med"",";
"    U_DT_NARROW: ""nar"",";
"    U_DT_NOBREAK: ""nb"",";
"    U_DT_NONE: ""none"",";
"    U_DT_SMALL: ""sml"",";
"    U_DT_SQUARE: ""sqr"",";
"    U_DT_SUB: ""sub"",";
"    U_DT_SUPER: ""sup"",";
"    U_DT_VERTICAL: ""vert"",";
"    U_DT_WIDE: ""wide""";
"}";
"";
"eastAsianWidthNames = {";
"    U_EA_AMBIGUOUS: ""A"",";
"    U_EA_FULLWIDTH: ""F"",";
"    U_EA_HALFWIDTH: ""H"",";
"    U_EA_NEUTRAL: ""N"",";
"    U_EA_NARROW: ""Na"",";
"    U_EA_WIDE: ""W""";
"}";
"";
"generalCategoryNames = {";
"    U_CONTROL_CHAR: ""Cc"",";
"    U_FORMAT_CHAR: ""Cf"",";
"    U_UNASSIGNED: ""Cn"",";
"    U_PRIVATE_USE_CHAR: ""Co"",";
"    U_SURROGATE: ""Cs"",";
"    U_LOWERCASE_LETTER: ""Ll"",";
"    U_MODIFIER_LETTER: ""Lm"",";
"    U_OTHER_LETTER: ""Lo"",";
"    U_TITLECASE_LETTER: ""Lt"",";
"    U_UPPERCASE_LETTER: ""Lu"",";
"    U_COMBINING_SPACING_MARK: ""Mc"",";
"    U_ENCLOSING_MARK: ""Me"",";
"    U_NON_SPACING_MARK: ""Mn"",";
"    U_DECIMAL_DIGIT_NUMBER: ""Nd"",";
"    U_LETTER_NUMBER: ""Nl"",";
"    U_OTHER_NUMBER: ""No"",";
"    U_CONNECTOR_PUNCTUATION: ""Pc"",";
"    U_DASH_PUNCTUATION: ""Pd"",";
"    U_END_PUNCTUATION: ""Pe"",";
"    U_FINAL_PUNCTUATION: ""Pf"",";
"    U_INITIAL_PUNCTUATION: ""Pi"",";
"    U_OTHER_PUNCTUATION: ""Po"",";
"    U_START_PUNCTUATION: ""Ps"",";
"    U_CURRENCY_SYMBOL: ""Sc"",";
"    U_MODIFIER_SYMBOL: ""Sk"",";
"    U_MATH_SYMBOL: ""Sm"",";
"    U_OTHER_SYMBOL: ""So"",";
"    U_LINE_SEPARATOR: ""Zl"",";
"    U_PARAGRAPH_SEPARATOR: ""Zp"",";
"    U_SPACE_SEPARATOR: ""Zs""";
"}";
"";
"graphemeClusterBreakNames = {";
"    U_GCB_CONTROL: ""CN"",";
"    U_GCB_CR: ""CR"",";
"    U_GCB_E_BASE: ""EB"",";
"    U_GCB_E_BASE_GAZ: ""EBG"",";
"    U_GCB_E_MODIFIER: ""EM"",";
"    U_GCB_EXTEND: ""EX"",";
"    U_GCB_GLUE_AFTER_ZWJ: ""GAZ"",";
"    U_GCB_L: ""L"",";
"    U_GCB_LF: ""LF"",";
"    U_GCB_LV: ""LV"",";
"    U_GCB_LVT: ""LVT"",";
"    U_GCB_PREPEND: ""PP"",";
"    U_GCB_REGIONAL_INDICATOR: ""RI"",";
"    U_GCB_SPACING_MARK: ""SM"",";
"    U_GCB_T: ""T"",";
"    U_GCB_V: ""V"",";
"    U_GCB_OTHER: ""XX"",";
"    U_GCB_ZWJ: ""ZWJ""";
"}";
"";
"hangulSyllableTypeNames = {";
"    U_HST_LEADING_JAMO: ""L"",";
"    U_HST_LV_SYLLABLE: ""LV"",";
"    U_HST_LVT_SYLLABLE: ""LVT"",";
"    U_HST_NOT_APPLICABLE: ""NA"",";
"    U_HST_TRAILING_JAMO: ""T"",";
"    U_HST_VOWEL_JAMO: ""V""";
"}";
"";
"indicPositionalCategoryNames = {";
"    U_INPC_BOTTOM: ""Bottom"",";
"    U_INPC_BOTTOM_AND_LEFT: ""Bottom_And_Left"",";
"    U_INPC_BOTTOM_AND_RIGHT: ""Bottom_And_Right"",";
"    U_INPC_LEFT: ""Left"",";
"    U_INPC_LEFT_AND_RIGHT: ""Left_And_Right"",";
"    U_INPC_NA: ""NA"",";
"    U_INPC_OVERSTRUCK: ""Overstruck"",";
"    U_INPC_RIGHT: ""Right"",";
"    U_INPC_TOP: ""Top"",";
"    U_INPC_TOP_AND_BOTTOM: ""Top_And_Bottom"",";
"    U_INPC_TOP_AND_BOTTOM_AND_LEFT: ""Top_And_Bottom_And_Left"",";
"    U_INPC_TOP_AND_BOTTOM_AND_RIGHT: ""Top_And_Bottom_And_Right"",";
"    U_INPC_TOP_AND_LEFT: ""Top_And_Left"",";
"    U_INPC_TOP_AND_LEFT_AND_RIGHT: ""Top_And_Left_And_Right"",";
"    U_INPC_TOP_AND_RIGHT: ""Top_And_Right"",";
"    U_INPC_VISUAL_ORDER_LEFT: ""Visual_Order_Left""";
"}";
"";
"indicSyllabicCategoryNames = {";
"    U_INSC_AVAGRAHA: ""Avagraha"",";
"    U_INSC_BINDU: ""Bindu"",";
"    U_INSC_BRAHMI_JOINING_NUMBER: ""Brahmi_Joining_Number"",";
"    U_INSC_CANTILLATION_MARK: ""Cantillation_Mark"",";
"    U_INSC_CONSONANT: ""Consonant"",";
"    U_INSC_CONSONANT_DEAD: ""Consonant_Dead"",";
"    U_INSC_CONSONANT_FINAL: ""Consonant_Final"",";
"    U_INSC_CONSONANT_HEAD_LETTER: ""Consonant_Head_Letter"",";
"    U_INSC_CONSONANT_INITIAL_POSTFIXED: ""Consonant_Initial_Postfixed"",";
"    U_INSC_CONSONANT_KILLER: ""Consonant_Killer"",";
"    U_INSC_CONSONANT_MEDIAL: ""Consonant_Medial"",";
"    U_INSC_CONSONANT_PLACEHOLDER: ""Consonant_Placeholder"",";
"    U_INSC_CONSONANT_PRECEDING_REPHA: ""Consonant_Preceding_Repha"",";
"    U_INSC_CONSONANT_PREFIXED: ""Consonant_Prefixed"",";
"    U_INSC_CONSONANT_SUBJOINED: ""Consonant_Subjoined"",";
"    U_INSC_CONSONANT_SUCCEEDING_REPHA: ""Consonant_Succeeding_Repha"",";
"    U_INSC_CONSONANT_WITH_STACKER: ""Consonant_With_Stacker"",";
"    U_INSC_GEMINATION_MARK: ""Gemination_Mark"",";
"    U_INSC_INVISIBLE_STACKER: ""Invisible_Stacker"",";
"    U_INSC_JOINER: ""Joiner"",";
"    U_INSC_MODIFYING_LETTER: ""Modifying_Letter"",";
"    U_INSC_NON_JOINER: ""Non_Joiner"",";
"    U_INSC_NUKTA: ""Nukta"",";
"    U_INSC_NUMBER: ""Number"",";
"    U_INSC_NUMBER_JOINER: ""Number_Joiner"",";
"    U_INSC_OTHER: ""Other"",";
"    U_INSC_PURE_KILLER: ""Pure_Killer"",";
"    U_INSC_REGISTER_SHIFTER: ""Register_Shifter"",";
"    U_INSC_SYLLABLE_MODIFIER: ""Syllable_Modifier"",";
"    U_INSC_TONE_LETTER: ""Tone_Letter"",";
"    U_INSC_TONE_MARK: ""Tone_Mark"",";
"    U_INSC_VIRAMA: ""Virama"",";
"    U_INSC_VISARGA: ""Visarga"",";
"    U_INSC_VOWEL: ""Vowel"",";
"    U_INSC_VOWEL_DEPENDENT: ""Vowel_Dependent"",";
"    U_INSC_VOWEL_INDEPENDENT: ""Vowel_Independent""";
"}";
"";
"joiningGroupNames = {";
"    U_JG_AFRICAN_FEH: ""African Feh"",";
"    U_JG_AFRICAN_NOON: ""African Noon"",";
"    U_JG_AFRICAN_QAF: ""African Qaf"",";
"    U_JG_AIN: ""Ain"",";
"    U_JG_ALAPH: ""Alaph"",";
"    U_JG_ALEF: ""Alef"",";
"    U_JG_BEH: ""Beh"",";
"    U_JG_BETH: ""Beth"",";
"    U_JG_BURUSHASKI_YEH_BARREE: ""Burushaski Yeh Barree"",";
"    U_JG_DAL: ""Dal"",";
"    U_JG_DALATH_RISH: ""Dalath Rish"",";
"    U_JG_E: ""E"",";
"    U_JG_FARSI_YEH: ""Farsi Yeh"",";
"    U_JG_FE: ""Fe"",";
"    U_JG_FEH: ""Feh"",";
"    U_JG_FINAL_SEMKATH: ""Final Semkath"",";
"    U_JG_GAF: ""Gaf"",";
"    U_JG_GAMAL: ""Gamal"",";
"    U_JG_HAH: ""Hah"",";
"    U_JG_HANIFI_ROHINGYA_KINNA_YA: ""Hanifi Rohingya Kinna Ya"",";
"    U_JG_HANIFI_ROHINGYA_PA: ""Hanifi Rohingya Pa"",";
"    U_JG_HE: ""He"",";
"    U_JG_HEH: ""Heh"",";
"    U_JG_HEH_GOAL: ""Heh Goal"",";
"    U_JG_HETH: ""Heth"",";
"    U_JG_KAF: ""Kaf"",";
"    U_JG_KAPH: ""Kaph"",";
"    U_JG_KHAPH: ""Khaph"",";
"    U_JG_KNOTTED_HEH: ""Knotted Heh"",";
"    U_JG_LAM: ""Lam"",";
"    U_JG_LAMADH: ""Lamadh"",";
"    U_JG_MALAYALAM_BHA: ""Malayalam Bha"",";
"    U_JG_MALAYALAM_JA: ""Malayalam Ja"",";
"    U_JG_MALAYALAM_LLA: ""Malayalam Lla"",";
"    U_JG_MALAYALAM_LLLA: ""Malayalam Llla"",";
"    U_JG_MALAYALAM_NGA: ""Malayalam Nga"",";
"    U_JG_MALAYALAM_NNA: ""Malayalam Nna"",";
"    U_JG_MALAYALAM_NNNA: ""Malayalam Nnna"",";
"    U_JG_MALAYALAM_NYA: ""Malayalam Nya"",";
"    U_JG_MALAYALAM_RA: ""Malayalam Ra"",";
"    U_JG_MALAYALAM_SSA: ""Malayalam Ssa"",";
"    U_JG_MALAYALAM_TTA: ""Malayalam Tta"",";
"    U_JG_MANICHAEAN_ALEPH: ""Manichaean Aleph"",";
"    U_JG_MANICHAEAN_AYIN: ""Manichaean Ayin"",";
"    U_JG_MANICHAEAN_BETH: ""Manichaean Beth"",";
"    U_JG_MANICHAEAN_DALETH: ""Manichaean Daleth"",";
"    U_JG_MANICHAEAN_DHAMEDH: ""Manichaean Dhamedh"",";
"    U_JG_MANICHAEAN_FIVE: ""Manichaean Five"",";
"    U_JG_MANICHAEAN_GIMEL: ""Manichaean Gimel"",";
"    U_JG_MANICHAEAN_HETH: ""Manichaean Heth"",";
"    U_JG_MANICHAEAN_HUNDRED: ""Manichaean Hundred"",";
"    U_JG_MANICHAEAN_KAPH: ""Manichaean Kaph"",";
"    U_JG_MANICHAEAN_LAMEDH: ""Manichaean Lamedh"",";
"    U_JG_MANICHAEAN_MEM: ""Manichaean Mem"",";
"    U_JG_MANICHAEAN_NUN: ""Manichaean Nun"",";
"    U_JG_MANICHAEAN_ONE: ""Manichaean One"",";
"    U_JG_MANICHAEAN_PE: ""Manichaean Pe"",";
"    U_JG_MANICHAEAN_QOPH: ""Manichaean Qoph"",";
"    U_JG_MANICHAEAN_RESH: ""Manichaean Resh"",";
"    U_JG_MANICHAEAN_SADHE: ""Manichaean Sadhe"",";
"    U_JG_MANICHAEAN_SAMEKH: ""Manichaean Samekh"",";
"    U_JG_MANICHAEAN_TAW: ""Manichaean Taw"",";
"    U_JG_MANICHAEAN_TEN: ""Manichaean Ten"",";
"    U_JG_MANICHAEAN_TETH: ""Manichaean Teth"",";
"    U_JG_MANICHAEAN_THAMEDH: ""Manichaean Thamedh"",";
"    U_JG_MANICHAEAN_TWENTY: ""Manichaean Twenty"",";
"    U_JG_MANICHAEAN_WAW: ""Manichaean Waw"",";
"    U_JG_MANICHAEAN_YODH: ""Manichaean Yodh"",";
"    U_JG_MANICHAEAN_ZAYIN: ""Manichaean Zayin"",";
"    U_JG_MEEM: ""Meem"",";
"    U_JG_MIM: ""Mim"",";
"    U_JG_NO_JOINING_GROUP: ""No Joining Group"",";
"    U_JG_NOON: ""Noon"",";
"    U_JG_NUN: ""Nun"",";
"    U_JG_NYA: ""Nya"",";
"    U_JG_PE: ""Pe"",";
"    U_JG_QAF: ""Qaf"",";
"    U_JG_QAPH: ""Qaph"",";
"    U_JG_REH: ""Reh"",";
"    U_JG_REVERSED_PE: ""Reversed Pe"",";
"    U_JG_ROHINGYA_YEH: ""Rohingya Yeh"",";
"    U_JG_SAD: ""Sad"",";
"    U_JG_SADHE: ""Sadhe"",";
"    U_JG_SEEN: ""Seen"",";
"    U_JG_SEMKATH: ""Semkath"",";
"    U_JG_SHIN: ""Shin"",";
"    U_JG_STRAIGHT_WAW: ""Straight Waw"",";
"    U_JG_SWASH_KAF: ""Swash Kaf"",";
"    U_JG_SYRIAC_WAW: ""Syriac Waw"",";
"    U_JG_TAH: ""Tah"",";
"    U_JG_TAW: ""Taw"",";
"    U_JG_TEH_MARBUTA: ""Teh Marbuta"",";
"    U_JG_HAMZA_ON_HEH_GOAL: ""Teh Marbuta Goal"",";
"    U_JG_TETH: ""Teth"",";
"    U_JG_WAW: ""Waw"",";
"    U_JG_YEH: ""Yeh"",";
"    U_JG_YEH_BARREE: ""Yeh Barree"",";
"    U_JG_YEH_WITH_TAIL: ""Yeh With Tail"",";
"    U_JG_YUDH: ""Yudh"",";
"    U_JG_YUDH_HE: ""Yudh He"",";
"    U_JG_ZAIN: ""Zain"",";
"    U_JG_ZHAIN: ""Zhain""";
"}";
"";
"joiningTypeNames = {";
"    U_JT_JOIN_CAUSING: ""C"",";
"    U_JT_DUAL_JOINING: ""D"",";
"    U_JT_LEFT_JOINING: ""L"",";
"    U_JT_RIGHT_JOINING: ""R"",";
"    U_JT_TRANSPARENT: ""T"",";
"    U_JT_NON_JOINING: ""U""";
"}";
"";
"lineBreakNames = {";
"    U_LB_AMBIGUOUS: ""AI"",";
"    U_LB_ALPHABETIC: ""AL"",";
"    U_LB_BREAK_BOTH: ""B2"",";
"    U_LB_BREAK_AFTER: ""BA"",";
"    U_LB_BREAK_BEFORE: ""BB"",";
"    U_LB_MANDATORY_BREAK: ""BK"",";
"    U_LB_CONTINGENT_BREAK: ""CB"",";
"    U_LB_CONDITIONAL_JAPANESE_STARTER: ""CJ"",";
"    U_LB_CLOSE_PUNCTUATION: ""CL"",";
"    U_LB_COMBINING_MARK: ""CM"",";
"    U_LB_CLOSE_PARENTHESIS: ""CP"",";
"    U_LB_CARRIAGE_RETURN: ""CR"",";
"    U_LB_E_BASE: ""EB"",";
"    U_LB_E_MODIFIER: ""EM"",";
"    U_LB_EXCLAMATION: ""EX"",";
"    U_LB_GLUE: ""GL"",";
"    U_LB_H2: ""H2"",";
"    U_LB_H3: ""H3"",";
"    U_LB_HEBREW_LETTER: ""HL"",";
"    U_LB_HYPHEN: ""HY"",";
"    U_LB_IDEOGRAPHIC: ""ID"",";
"    U_LB_INSEPARABLE: ""IN"",";
"    U_LB_INFIX_NUMERIC: ""IS"",";
"    U_LB_JL: ""JL"",";
"    U_LB_JT: ""JT"",";
"    U_LB_JV: ""JV"",";
"    U_LB_LINE_FEED: ""LF"",";
"    U_LB_NEXT_LINE: ""NL"",";
"    U_LB_NONSTARTER: ""NS"",";
"    U_LB_NUMERIC: ""NU"",";
"    U_LB_OPEN_PUNCTUATION: ""OP"",";
"    U_LB_POSTFIX_NUMERIC: ""PO"",";
"    U_LB_PREFIX_NUMERIC: ""PR"",";
"    U_LB_QUOTATION: ""QU"",";
"    U_LB_REGIONAL_INDICATOR: ""RI"",";
"    U_LB_COMPLEX_CONTEXT: ""SA"",";
"    U_LB_SURROGATE: ""SG"",";
"    U_LB_SPACE: ""SP"",";
"    U_LB_BREAK_SYMBOLS: ""SY"",";
"    U_LB_WORD_JOINER: ""WJ"",";
"    U_LB_UNKNOWN: ""XX"",";
"    U_LB_ZWSPACE: ""ZW"",";
"    U_LB_ZWJ: ""ZWJ""";
"}";
"";
"numberTypeNames = {";
"    U_NT_DECIMAL: ""De"",";
"    U_NT_DIGIT: ""Di"",";
"    U_NT_NONE: ""None"",";
"    U_NT_NUMERIC: ""Nu""";
"}";
"";
"sentenceBreakNames = {";
"    U_SB_ATERM: ""AT"",";
"    U_SB_CLOSE: ""CL"",";
"    U_SB_CR: ""CR"",";
"    U_SB_EXTEND: ""EX"",";
"    U_SB_FORMAT: ""FO"",";
"    U_SB_OLETTER: ""LE"",";
"    U_SB_LF: ""LF"",";
"    U_SB_LOWER: ""LO"",";
"    U_SB_NUMERIC: ""NU"",";
"    U_SB_SCONTINUE: ""SC"",";
"    U_SB_SEP: ""SE"",";
"    U_SB_SP: ""SP"",";
"    U_SB_STERM: ""ST"",";
"    U_SB_UPPER: ""UP"",";
"    U_SB_OTHER: ""XX""";
"}";
"";
"scriptNames = {";
"    USCRIPT_ADLAM: ""Adlm"",";
"    USCRIPT_AFAKA: ""Afak"",";
"    USCRIPT_CAUCASIAN_ALBANIAN: ""Aghb"",";
"    USCRIPT_AHOM: ""Ahom"",";
"    USCRIPT_ARABIC: ""Arab"",";
"    USCRIPT_IMPERIAL_ARAMAIC: ""Armi"",";
"    USCRIPT_ARMENIAN: ""Armn"",";
"    USCRIPT_AVESTAN: ""Avst"",";
"    USCRIPT_BALINESE: ""Bali"",";
"    USCRIPT_BAMUM: ""Bamu"",";
"    USCRIPT_BASSA_VAH: ""Bass"",";
"    USCRIPT_BATAK: ""Batk"",";
"    USCRIPT_BENGALI: ""Beng"",";
"    USCRIPT_BHAIKSUKI: ""Bhks"",";
"    USCRIPT_BLISSYMBOLS: ""Blis"",";
"    USCRIPT_BOPOMOFO: ""Bopo"",";
"    USCRIPT_BRAHMI: ""Brah"",";
"    USCRIPT_BRAILLE: ""Brai"",";
"    USCRIPT_BUGINESE: ""Bugi"",";
"    USCRIPT_BUHID: ""Buhd"",";
"    USCRIPT_CHAKMA: ""Cakm"",";
"    USCRIPT_CANADIAN_ABORIGINAL: ""Cans"",";
"    USCRIPT_CARIAN: ""Cari"",";
"    USCRIPT_CHAM: ""Cham"",";
"    USCRIPT_CHEROKEE: ""Cher"",";
"    USCRIPT_CHORASMIAN: ""Chrs"",";
"    USCRIPT_CIRTH: ""Cirt"",";
"    USCRIPT_COPTIC: ""Copt"",";
"    USCRIPT_CYPRIOT: ""Cprt"",";
"    USCRIPT_CYRILLIC: ""Cyrl"",";
"    USCRIPT_OLD_CHURCH_SLAVONIC_CYRILLIC: ""Cyrs"",";
"    USCRIPT_DEVANAGARI: ""Deva"",";
"    USCRIPT_DIVES_AKURU: ""Diak"",";
"    USCRIPT_DOGRA: ""Dogr"",";
"    USCRIPT_DESERET: ""Dsrt"",";
"    USCRIPT_DUPLOYAN: ""Dupl"",";
"    USCRIPT_DEMOTIC_EGYPTIAN: ""Egyd"",";
"    USCRIPT_HIERATIC_EGYPTIAN: ""Egyh"",";
"    USCRIPT_EGYPTIAN_HIEROGLYPHS: ""Egyp"",";
"    USCRIPT_ELBASAN: ""Elba"",";
"    USCRIPT_ELYMAIC: ""Elym"",";
"    USCRIPT_ETHIOPIC: ""Ethi"",";
"    USCRIPT_KHUTSURI: ""Geok"",";
"    USCRIPT_GEORGIAN: ""Geor"",";
"    USCRIPT_GLAGOLITIC: ""Glag"",";
"    USCRIPT_GUNJALA_GONDI: ""Gong"",";
"    USCRIPT_MASARAM_GONDI: ""Gonm"",";
"    USCRIPT_GOTHIC: ""Goth"",";
"    USCRIPT_GRANTHA: ""Gran"",";
"    USCRIPT_GREEK: ""Grek"",";
"    USCRIPT_GUJARATI: ""Gujr"",";
"    USCRIPT_GURMUKHI: ""Guru"",";
"    USCRIPT_HAN_WITH_BOPOMOFO: ""Hanb"",";
"    USCRIPT_HANGUL: ""Hang"",";
"    USCRIPT_HAN: ""Hani"",";
"    USCRIPT_HANUNOO: ""Hano"",";
"    USCRIPT_SIMPLIFIED_HAN: ""Hans"",";
"    USCRIPT_TRADITIONAL_HAN: ""Hant"",";
"    USCRIPT_HATRAN: ""Hatr"",";
"    USCRIPT_HEBREW: ""Hebr"",";
"    USCRIPT_HIRAGANA: ""Hira"",";
"    USCRIPT_ANATOLIAN_HIEROGLYPHS: ""Hluw"",";
"    USCRIPT_PAHAWH_HMONG: ""Hmng"",";
"    USCRIPT_NYIAKENG_PUACHUE_HMONG: ""Hmnp"",";
"    USCRIPT_KATAKANA_OR_HIRAGANA: ""Hrkt"",";
"    USCRIPT_OLD_HUNGARIAN: ""Hung"",";
"    USCRIPT_HARAPPAN_INDUS: ""Inds"",";
"    USCRIPT_OLD_ITALIC: ""Ital"",";
"    USCRIPT_JAMO: ""Jamo"",";
"    USCRIPT_JAVANESE: ""Java"",";
"    USCRIPT_JAPANESE: ""Jpan"",";
"    USCRIPT_JURCHEN: ""Jurc"",";
"    USCRIPT_KAYAH_LI: ""Kali"",";
"    USCRIPT_KATAKANA: ""Kana"",";
"    USCRIPT_KHAROSHTHI: ""Khar"",";
"    USCRIPT_KHMER: ""Khmr"",";
"    USCRIPT_KHOJKI: ""Khoj"",";
"    USCRIPT_KHITAN_SMALL_SCRIPT: ""Kits"",";
"    USCRIPT_KANNADA: ""Knda"",";
"    USCRIPT_KOREAN: ""Kore"",";
"    USCRIPT_KPELLE: ""Kpel"",";
"    USCRIPT_KAITHI: ""Kthi"",";
"    USCRIPT_LANNA: ""Lana"",";
"    USCRIPT_LAO: ""Laoo"",";
"    USCRIPT_LATIN_FRAKTUR: ""Latf"",";
"    USCRIPT_LATIN_GAELIC: ""Latg"",";
"    USCRIPT_LATIN: ""Latn"",";
"    USCRIPT_LEPCHA: ""Lepc"",";
"    USCRIPT_LIMBU: ""Limb"",";
"    USCRIPT_LINEAR_A: ""Lina"",";
"    USCRIPT_LINEAR_B: ""Linb"",";
"    USCRIPT_LISU: ""Lisu"",";
"    USCRIPT_LOMA: ""Loma"",";
"    USCRIPT_LYCIAN: ""Lyci"",";
"    USCRIPT_LYDIAN: ""Lydi"",";
"    USCRIPT_MAHAJANI: ""Mahj"",";
"    USCRIPT_MAKASAR: ""Maka"",";
"    USCRIPT_MANDAIC: ""Mand"",";
"    USCRIPT_MANICHAEAN: ""Mani"",";
"    USCRIPT_MARCHEN: ""Marc"",";
"    USCRIPT_MAYAN_HIEROGLYPHS: ""Maya"",";
"    USCRIPT_MEDEFAIDRIN: ""Medf"",";
"    USCRIPT_MENDE: ""Mend"",";
"    USCRIPT_MEROITIC_CURSIVE: ""Merc"",";
"    USCRIPT_MEROITIC_HIEROGLYPHS: ""Mero"",";
"    USCRIPT_MALAYALAM: ""Mlym"",";
"    USCRIPT_MODI: ""Modi"",";
"    USCRIPT_MONGOLIAN: ""Mong"",";
"    USCRIPT_MOON: ""Moon"",";
"    USCRIPT_MRO: ""Mroo"",";
"    USCRIPT_MEITEI_MAYEK: ""Mtei"",";
"    USCRIPT_MULTANI: ""Mult"",";
"    USCRIPT_MYANMAR: ""Mymr"",";
"    USCRIPT_NANDINAGARI: ""Nand"",";
"    USCRIPT_OLD_NORTH_ARABIAN: ""Narb"",";
"    USCRIPT_NABATAEAN: ""Nbat"",";
"    USCRIPT_NEWA: ""Newa"",";
"    USCRIPT_NAKHI_GEBA: ""Nkgb"",";
"    USCRIPT_NKO: ""Nkoo"",";
"    USCRIPT_NUSHU: ""Nshu"",";
"    USCRIPT_OGHAM: ""Ogam"",";
"    USCRIPT_OL_CHIKI: ""Olck"",";
"    USCRIPT_ORKHON: ""Orkh"",";
"    USCRIPT_ORIYA: ""Orya"",";
"    USCRIPT_OSAGE: ""Osge"",";
"    USCRIPT_OSMANYA: ""Osma"",";
"    USCRIPT_PALMYRENE: ""Palm"",";
"    USCRIPT_PAU_CIN_HAU: ""Pauc"",";
"    USCRIPT_OLD_PERMIC: ""Perm"",";
"    USCRIPT_PHAGS_PA: ""Phag"",";
"    USCRIPT_INSCRIPTIONAL_PAHLAVI: ""Phli"",";
"    USCRIPT_PSALTER_PAHLAVI: ""Phlp"",";
"    USCRIPT_BOOK_PAHLAVI: ""Phlv"",";
"    USCRIPT_PHOENICIAN: ""Phnx"",";
"    USCRIPT_MIAO: ""Plrd"",";
"    USCRIPT_INSCRIPTIONAL_PARTHIAN: ""Prti"",";
"    USCRIPT_REJANG: ""Rjng"",";
"    USCRIPT_HANIFI_ROHINGYA: ""Rohg"",";
"    USCRIPT_RONGORONGO: ""Roro"",";
"    USCRIPT_RUNIC: ""Runr"",";
"    USCRIPT_SAMARITAN: ""Samr"",";
"    USCRIPT_SARATI: ""Sara"",";
"    USCRIPT_OLD_SOUTH_ARABIAN: ""Sarb"",";
"    USCRIPT_SAURASHTRA: ""Saur"",";
"    USCRIPT_SIGN_WRITING: ""Sgnw"",";
"    USCRIPT_SHAVIAN: ""Shaw"",";
"    USCRIPT_SHARADA: ""Shrd"",";
"    USCRIPT_SIDDHAM: ""Sidd"",";
"    USCRIPT_KHUDAWADI: ""Sind"",";
"    USCRIPT_SINHALA: ""Sinh"",";
"    USCRIPT_SOGDIAN: ""Sogd"",";
"    USCRIPT_OLD_SOGDIAN: ""Sogo"",";
"    USCRIPT_SORA_SOMPENG: ""Sora"",";
"    USCRIPT_SOYOMBO: ""Soyo"",";
"    USCRIPT_SUNDANESE: ""Sund"",";
"    USCRIPT_SYLOTI_NAGRI: ""Sylo"",";
"    USCRIPT_SYRIAC: ""Syrc"",";
"    USCRIPT_ESTRANGELO_SYRIAC: ""Syre"",";
"    USCRIPT_WESTERN_SYRIAC: ""Syrj"",";
"    USCRIPT_EASTERN_SYRIAC: ""Syrn"",";
"    USCRIPT_TAGBANWA: ""Tagb"",";
"    USCRIPT_TAKRI: ""Takr"",";
"    USCRIPT_TAI_LE: ""Tale"",";
"    USCRIPT_NEW_TAI_LUE: ""Talu"",";
"    USCRIPT_TAMIL: ""Taml"",";
"    USCRIPT_TANGUT: ""Tang"",";
"    USCRIPT_TAI_VIET: ""Tavt"",";
"    USCRIPT_TELUGU: ""Telu"",";
"    USCRIPT_TENGWAR: ""Teng"",";
"    USCRIPT_TIFINAGH: ""Tfng"",";
"    USCRIPT_TAGALOG: ""Tglg"",";
"    USCRIPT_THAANA: ""Thaa"",";
"    USCRIPT_THAI: ""Thai"",";
"    USCRIPT_TIBETAN: ""Tibt"",";
"    USCRIPT_TIRHUTA: ""Tirh"",";
"    USCRIPT_UGARITIC: ""Ugar"",";
"    USCRIPT_VAI: ""Vaii"",";
"    USCRIPT_VISIBLE_SPEECH: ""Visp"",";
"    USCRIPT_WARANG_CITI: ""Wara"",";
"    USCRIPT_WANCHO: ""Wcho"",";
"    USCRIPT_WOLEAI: ""Wole"",";
"    USCRIPT_OLD_PERSIAN: ""Xpeo"",";
"    USCRIPT_CUNEIFORM: ""Xsux"",";
"    USCRIPT_YEZIDI: ""Yezi"",";
"    USCRIPT_YI: ""Yiii"",";
"    USCRIPT_ZANABAZAR_SQUARE: ""Zanb"",";
"    USCRIPT_INHERITED: ""Zinh"",";
"    USCRIPT_MATHEMATICAL_NOTATION: ""Zmth"",";
"    USCRIPT_SYMBOLS_EMOJI: ""Zsye"",";
"    USCRIPT_SYMBOLS: ""Zsym"",";
"    USCRIPT_UNWRITTEN_LANGUAGES: ""Zxxx"",";
"    USCRIPT_COMMON: ""Zyyy"",";
"    USCRIPT_UNKNOWN: ""Zzzz""";
"}";
"";
"verticalOrientationNames = {";
"    U_VO_ROTATED: ""R"",";
"    U_VO_TRANSFORMED_ROTATED: ""Tr"",";
"    U_VO_TRANSFORMED_UPRIGHT: ""Tu"",";
"    U_VO_UPRIGHT: ""U""";
"}";
"";
"wordBreakNames = {";
"    U_WB_CR: ""CR"",";
"    U_WB_DOUBLE_QUOTE: ""DQ"",";
"    U_WB_E_BASE: ""EB"",";
"    U_WB_E_BASE_GAZ: ""EBG"",";
"    U_WB_E_MODIFIER: ""EM"",";
"    U_WB_EXTENDNUMLET: ""EX"",";
"    U_WB_EXTEND: ""Extend"",";
"    U_WB_FORMAT: ""FO"",";
"    U_WB_GLUE_AFTER_ZWJ: ""GAZ"",";
"    U_WB_HEBREW_LETTER: ""HL"",";
"    U_WB_KATAKANA: ""KA"",";
"    U_WB_ALETTER: ""LE"",";
"    U_WB_LF: ""LF"",";
"    U_WB_MIDNUMLET: ""MB"",";
"    U_WB_MIDLETTER: ""ML"",";
"    U_WB_MIDNUM: ""MN"",";
"    U_WB_NEWLINE: ""NL"",";
"    U_WB_NUMERIC: ""NU"",";
"    U_WB_REGIONAL_INDICATOR: ""RI"",";
"    U_WB_SINGLE_QUOTE: ""SQ"",";
"    U_WB_WSEGSPACE: ""WSegSpace"",";
"    U_WB_OTHER: ""XX"",";
"    U_WB_ZWJ: ""ZWJ""";
"}";
"";
""].

(** UnicodeVersion.py:1-2 *)
Definition UnicodeVersion_lines : list string := [
"unicodeVersion = ""13.0.0""";
""].

(** BidiPropsData.py:1-895 *)
Definition BidiPropsData_lines : list string := [
"""""""/";
"BidiPropsData.py, based on ubidi_props_data.h from ICU";
"";
"Generated by ModuleBuilder.py on August 26, 2021 at 11:27:13 AM HST";
"""""""";
"";
"ubidi_props_indexes = [0x10,0x67ec,0x6200,0x28,0x620,0x8c8,0x10ac0,0x10d24,0,0,0,0,0,0,0,0x6502b6]";
"";
"ubidi_props_trieIndex = [";
"    0x37c,0x384,0x38c,0x394,0x3ac,0x3b4,0x3bc,0x3c4,0x39c,0x3a4,0x39c,0x3a4,0x39c,0x3a4,0x39c,0x3a4,";
"    0x39c,0x3a4,0x39c,0x3a4,0x3ca,0x3d2,0x3da,0x3e2,0x3ea,0x3f2,0x3ee,0x3f6,0x3fe,0x406,0x401,0x409,";
"    0x39c,0x3a4,0x39c,0x3a4,0x411,0x419,0x39c,0x3a4,0x39c,0x3a4,0x39c,0x3a4,0x41f,0x427,0x42f,0x437,";
"    0x43f,0x447,0x44f,0x457,0x45d,0x465,0x46d,0x475,0x47d,0x485,0x48b,0x493,0x49b,0x4a3,0x4ab,0x4b3,";
"    0x4bf,0x4bb,0x4c7,0x4cf,0x431,0x4df,0x4e6,0x4d7,0x4ee,0x4f0,0x4f8,0x500,0x508,0x509,0x511,0x519,";
"    0x521,0x509,0x529,0x52e,0x521,0x509,0x536,0x53e,0x508,0x546,0x54e,0x500,0x556,0x39c,0x55e,0x562,";
"    0x56a,0x56c,0x574,0x57c,0x508,0x584,0x58c,0x500,0x413,0x590,0x511,0x500,0x508,0x39c,0x598,0x39c,";
"    0x39c,0x59e,0x5a6,0x39c,0x39c,0x5aa,0x5b2,0x39c,0x5b6,0x5bd,0x39c,0x5c5,0x5cd,0x5d4,0x555,0x39c,";
"    0x39c,0x5dc,0x5e4,0x5ec,0x5f4,0x39c,0x39c,0x39c,0x39c,0x39c,0x39c,0x39c,0x39c,0x39c,0x39c,0x39c,";
"    0x39c,0x39c,0x39c,0x39c,0x39c,0x39c,0x39c,0x39c,0x39c,0x39c,0x5fc,0x39c,0x604,0x39c,0x39c,0x39c,";
"    0x60c,0x39c,0x39c,0x39c,0x39c,0x39c,0x39c,0x39c,0x39c,0x39c,0x39c,0x39c,0x39c,0x39c,0x39c,0x39c,";
"    0x39c,0x39c,0x39c,0x39c,0x614,0x39c,0x39c,0x39c,0x61c,0x61c,0x515,0x515,0x39c,0x622,0x62a,0x604,";
"    0x640,0x632,0x632,0x648,0x64f,0x638,0x39c,0x39c,0x39c,0x657,0x65f,0x39c,0x39c,0x39c,0x661,0x669,";
"    0x671,0x39c,0x678,0x680,0x39c,0x688,0x56b,0x39c,0x545,0x690,0x556,0x698,0x413,0x6a0,0x39c,0x6a7,";
"    0x39c,0x6ac,0x39c,0x39c,0x39c,0x39c,0x6b2,0x6ba,0x39c,0x39c,0x39c,0x39c,0x39c,0x39c,0x3ea,0x6c2,";
"    0x39c,0x39c,0x39c,0x39c,0x39c,0x39c,0x39c,0x39c,0x39c,0x39c,0x39c,0x39c,0x39c,0x6ca,0x6d2,0x6d6,";
"    0x6ee,0x6f4,0x6de,0x6e6,0x6fc,0x704,0x708,0x5d7,0x710,0x718,0x720,0x39c,0x728,0x669,0x669,0x669,";
"    0x738,0x740,0x748,0x750,0x755,0x75d,0x765,0x730,0x76d,0x775,0x39c,0x77b,0x782,0x669,0x669,0x669,";
"    0x669,0x582,0x788,0x669,0x790,0x39c,0x39c,0x666,0x669,0x669,0x669,0x669,0x669,0x669,0x669,0x669,";
"    0x669,0x669,0x669,0x669,0x669,0x798,0x669,0x669,0x669,0x669,0x669,0x79e,0x669,0x669,0x7a6,0x7ae,";
"    0x39c,0x39c,0x39c,0x39c,0x39c,0x39c,0x39c,0x39c,0x669,0x669,0x669,0x669,0x7be,0x7c6,0x7ce,0x7b6,";
"    0x7de,0x7e6,0x7ee,0x7f5,0x7fc,0x804,0x808,0x7d6,0x669,0x669,0x669,0x810,0x816,0x669,0x669,0x81c,";
"    0x39c,0x39c,0x39c,0x39c,0x39c,0x39c,0x39c,0x824,0x39c,0x39c,0x39c,0x82c,0x39c,0x39c,0x39c,0x3ea,";
"    0x834,0x83c,0x840,0x39c,0x848,0x669,0x669,0x66c,0x669,0x669,0x669,0x669,0x669,0x669,0x84f,0x855,";
"    0x865,0x85d,0x39c,0x39c,0x86d,0x60c,0x39c,0x3c3,0x39c,0x39c,0x39c,0x39c,0x39c,0x39c,0x669,0x82b,";
"    0x3d1,0x39c,0x875,0x87d,0x39c,0x885,0x88d,0x39c,0x39c,0x39c,0x39c,0x891,0x39c,0x39c,0x661,0x3c2,";
"    0x39c,0x39c,0x39c,0x39c,0x39c,0x39c,0x39c,0x39c,0x39c,0x39c,0x39c,0x39c,0x39c,0x39c,0x39c,0x39c,";
"    0x39c,0x39c,0x39c,0x39c,0x39c,0x39c,0x39c,0x39c,0x39c,0x39c,0x39c,0x39c,0x39c,0x39c,0x39c,0x39c,";
"    0x39c,0x39c,0x39c,0x39c,0x39c,0x39c,0x39c,0x39c,0x39c,0x39c,0x39c,0x39c,0x39c,0x39c,0x39c,0x39c,";
"    0x39c,0x39c,0x39c,0x39c,0x39c,0x39c,0x39c,0x39c,0x39c,0x39c,0x39c,0x39c,0x39c,0x39c,0x39c,0x39c,";
"    0x39c,0x39c,0x39c,0x39c,0x39c,0x39c,0x39c,0x39c,0x39c,0x39c,0x39c,0x39c,0x39c,0x39c,0x39c,0x39c,";
"    0x39c,0x39c,0x39c,0x39c,0x39c,0x39c,0x39c,0x39c,0x39c,0x39c,0x39c,0x39c,0x39c,0x39c,0x39c,0x39c,";
"    0x39c,0x39c,0x39c,0x39c,0x39c,0x39c,0x39c,0x39c,0x39c,0x39c,0x39c,0x39c,0x39c,0x39c,0x39c,0x39c,";
"    0x39c,0x39c,0x39c,0x39c,0x39c,0x39c,0x39c,0x39c,0x39c,0x39c,0x39c,0x39c,0x39c,0x39c,0x39c,0x39c,";
"    0x39c,0x39c,0x39c,0x39c,0x39c,0x39c,0x39c,0x39c,0x39c,0x39c,0x39c,0x39c,0x39c,0x39c,0x39c,0x39c,";
"    0x39c,0x39c,0x39c,0x39c,0x39c,0x39c,0x39c,0x39c,0x39c,0x39c,0x39c,0x39c,0x39c,0x39c,0x39c,0x39c,";
"    0x39c,0x39c,0x39c,0x39c,0x39c,0x39c,0x39c,0x39c,0x39c,0x39c,0x39c,0x39c,0x39c,0x39c,0x39c,0x39c,";
"    0x39c,0x39c,0x39c,0x39c,0x39c,0x39c,0x39c,0x39c,0x39c,0x39c,0x39c,0x39c,0x39c,0x39c,0x39c,0x39c,";
"    0x39c,0x39c,0x39c,0x39c,0x39c,0x39c,0x39c,0x39c,0x39c,0x39c,0x39c,0x39c,0x39c,0x39c,0x669,0x669,";
"    0x39c,0x39c,0x39c,0x39c,0x39c,0x39c,0x39c,0x39c,0x39c,0x39c,0x39c,0x39c,0x39c,0x39c,0x39c,0x39c,";
"    0x39c,0x39c,0x39c,0x39c,0x39c,0x39c,0x39c,0x39c,0x39c,0x39c,0x39c,0x39c,0x39c,0x39c,0x39c,0x39c,";
"    0x39c,0x39c,0x39c,0x39c,0x39c,0x39c,0x39c,0x39c,0x39c,0x39c,0x39c,0x39c,0x39c,0x39c,0x39c,0x39c,";
"    0x39c,0x39c,0x39c,0x39c,0x39c,0x39c,0x39c,0x39c,0x39c,0x39c,0x39c,0x39c,0x39c,0x39c,0x39c,0x39c,";
"    0x39c,0x39c,0x39c,0x39c,0x39c,0x39c,0x39c,0x39c,0x39c,0x39c,0x39c,0x39c,0x39c,0x39c,0x39c,0x39c,";
"    0x39c,0x39c,0x39c,0x39c,0x39c,0x39c,0x39c,0x39c,0x39c,0x39c,0x39c,0x39c,0x39c,0x39c,0x39c,0x39c,";
"    0x39c,0x39c,0x39c,0x39c,0x39c,0x39c,0x39c,0x39c,0x39c,0x39c,0x39c,0x39c,0x39c,0x39c,0x39c,0x39c,";
"    0x39c,0x39c,0x39c,0x39c,0x39c,0x39c,0x39c,0x39c,0x39c,0x39c,0x39c,0x39c,0x39c,0x39c,0x39c,0x39c,";
"    0x39c,0x39c,0x39c,0x39c,0x39c,0x39c,0x39c,0x39c,0x39c,0x39c,0x39c,0x39c,0x39c,0x39c,0x39c,0x39c,";
"    0x39c,0x39c,0x39c,0x39c,0x39c,0x39c,0x39c,0x39c,0x39c,0x39c,0x39c,0x39c,0x39c,0x39c,0x39c,0x39c,";
"    0x39c,0x39c,0x39c,0x39c,0x39c,0x39c,0x39c,0x39c,0x39c,0x39c,0x39c,0x39c,0x39c,0x39c,0x39c,0x39c,";
"    0x39c,0x39c,0x39c,0x39c,0x39c,0x39c,0x39c,0x39c,0x39c,0x39c,0x39c,0x39c,0x39c,0x39c,0x39c,0x39c,";
"    0x39c,0x39c,0x39c,0x39c,0x39c,0x39c,0x39c,0x39c,0x39c,0x39c,0x39c,0x39c,0x39c,0x39c,0x39c,0x39c,";
"    0x39c,0x39c,0x39c,0x39c,0x39c,0x39c,0x39c,0x39c,0x39c,0x39c,0x39c,0x39c,0x39c,0x39c,0x39c,0x39c,";
"    0x39c,0x39c,0x39c,0x39c,0x39c,0x39c,0x39c,0x39c,0x39c,0x39c,0x39c,0x39c,0x39c,0x39c,0x39c,0x39c,";
"    0x39c,0x39c,0x39c,0x39c,0x39c,0x39c,0x39c,0x39c,0x39c,0x39c,0x39c,0x39c,0x39c,0x39c,0x39c,0x39c,";
"    0x39c,0x39c,0x39c,0x39c,0x39c,0x39c,0x39c,0x39c,0x39c,0x39c,0x39c,0x39c,0x39c,0x39c,0x39c,0x39c,";
"    0x39c,0x39c,0x39c,0x39c,0x39c,0x39c,0x39c,0x39c,0x39c,0x39c,0x39c,0x39c,0x39c,0x39c,0x39c,0x39c,";
"    0x39c,0x39c,0x39c,0x39c,0x39c,0x39c,0x39c,0x39c,0x39c,0x39c,0x39c,0x39c,0x39c,0x39c,0x39c,0x39c,";
"    0x39c,0x39c,0x39c,0x39c,0x39c,0x39c,0x39c,0x39c,0x39c,0x39c,0x39c,0x39c,0x39c,0x39c,0x39c,0x39c,";
"    0x39c,0x39c,0x39c,0x39c,0x39c,0x39c,0x39c,0x39c,0x39c,0x39c,0x39c,0x39c,0x39c,0x39c,0x39c,0x39c,";
"    0x39c,0x39c,0x39c,0x39c,0x39c,0x39c,0x39c,0x39c,0x39c,0x39c,0x39c,0x39c,0x39c,0x39c,0x39c,0x39c,";
"    0x39c,0x39c,0x39c,0x39c,0x39c,0x39c,0x39c,0x39c,0x39c,0x39c,0x39c,0x39c,0x39c,0x39c,0x39c,0x39c,";
"    0x39c,0x39c,0x39c,0x39c,0x39c,0x39c,0x39c,0x39c,0x39c,0x39c,0x39c,0x39c,0x39c,0x39c,0x39c,0x39c,";
"    0x39c,0x39c,0x39c,0x39c,0x39c,0x39c,0x39c,0x39c,0x39c,0x39c,0x39c,0x39c,0x39c,0x39c,0x39c,0x39c,";
"    0x39c,0x39c,0x39c,0x39c,0x39c,0x39c,0x39c,0x39c,0x39c,0x39c,0x39c,0x39c,0x39c,0x39c,0x39c,0x39c,";
"    0x39c,0x39c,0x39c,0x39c,0x39c,0x39c,0x39c,0x39c,0x39c,0x39c,0x39c,0x39c,0x39c,0x39c,0x39c,0x39c,";
"    0x39c,0x39c,0x39c,0x39c,0x39c,0x39c,0x39c,0x39c,0x39c,0x39c,0x39c,0x39c,0x39c,0x39c,0x39c,0x39c,";
"    0x39c,0x39c,0x39c,0x39c,0x39c,0x39c,0x39c,0x39c,0x39c,0x39c,0x39c,0x39c,0x39c,0x39c,0x39c,0x39c,";
"    0x39c,0x39c,0x39c,0x39c,0x39c,0x39c,0x39c,0x39c,0x39c,0x39c,0x39c,0x39c,0x39c,0x39c,0x39c,0x39c,";
"    0x39c,0x39c,0x39c,0x39c,0x39c,0x39c,0x39c,0x39c,0x39c,0x39c,0x39c,0x39c,0x39c,0x39c,0x39c,0x39c,";
"    0x39c,0x39c,0x39c,0x39c,0x39c,0x39c,0x39c,0x39c,0x39c,0x39c,0x39c,0x39c,0x39c,0x39c,0x39c,0x39c,";
"    0x39c,0x39c,0x39c,0x39c,0x39c,0x39c,0x39c,0x39c,0x39c,0x39c,0x39c,0x39c,0x39c,0x39c,0x39c,0x39c,";
"    0x39c,0x39c,0x39c,0x39c,0x39c,0x39c,0x39c,0x39c,0x39c,0x39c,0x39c,0x39c,0x39c,0x39c,0x39c,0x39c,";
"    0x39c,0x39c,0x39c,0x39c,0x39c,0x39c,0x39c,0x39c,0x39c,0x39c,0x39c,0x39c,0x39c,0x39c,0x39c,0x39c,";
"    0x39c,0x39c,0x39c,0x39c,0x39c,0x39c,0x39c,0x39c,0x39c,0x39c,0x39c,0x39c,0x39c,0x39c,0x39c,0x39c,";
"    0x39c,0x39c,0x39c,0x39c,0x39c,0x39c,0x39c,0x39c,0x39c,0x39c,0x39c,0x39c,0x39c,0x39c,0x39c,0x39c,";
"    0x39c,0x39c,0x39c,0x39c,0x39c,0x39c,0x39c,0x39c,0x39c,0x39c,0x39c,0x39c,0x39c,0x39c,0x39c,0x39c,";
"    0x39c,0x39c,0x39c,0x39c,0x39c,0x39c,0x39c,0x39c,0x39c,0x39c,0x39c,0x39c,0x39c,0x39c,0x39c,0x39c,";
"    0x39c,0x39c,0x39c,0x39c,0x39c,0x39c,0x39c,0x39c,0x39c,0x39c,0x39c,0x39c,0x39c,0x39c,0x39c,0x39c,";
"    0x39c,0x39c,0x39c,0x39c,0x39c,0x39c,0x39c,0x39c,0x39c,0x39c,0x39c,0x39c,0x39c,0x39c,0x39c,0x39c,";
"    0x39c,0x39c,0x39c,0x39c,0x39c,0x39c,0x39c,0x39c,0x39c,0x39c,0x39c,0x39c,0x39c,0x39c,0x39c,0x39c,";
"    0x39c,0x39c,0x39c,0x39c,0x39c,0x39c,0x39c,0x39c,0x39c,0x39c,0x39c,0x39c,0x39c,0x39c,0x39c,0x39c,";
"    0x39c,0x39c,0x39c,0x39c,0x875,0x669,0x582,0x39c,0x39c,0x39c,0x39c,0x39c,0x39c,0x39c,0x39c,0x39c,";
"    0x898,0x39c,0x39c,0x89d,0x56c,0x39c,0x39c,0x5b8,0x669,0x660,0x39c,0x39c,0x8a5,0x39c,0x39c,0x39c,";
"    0x8ad,0x8b4,0x632,0x8bc,0x39c,0x39c,0x58e,0x8c4,0x39c,0x8cc,0x8d3,0x39c,0x4ee,0x8d8,0x39c,0x507,";
"    0x39c,0x8e0,0x8e8,0x509,0x39c,0x8ec,0x508,0x8f4,0x39c,0x39c,0x39c,0x8fa,0x39c,0x39c,0x39c,0x901,";
"    0x39c,0x39c,0x39c,0x39c,0x39c,0x39c,0x39c,0x39c,0x39c,0x39c,0x39c,0x39c,0x39c,0x39c,0x39c,0x39c,";
"    0x39c,0x39c,0x39c,0x39c,0x39c,0x39c,0x39c,0x39c,0x39c,0x39c,0x39c,0x39c,0x39c,0x39c,0x39c,0x39c,";
"    0x39c,0x39c,0x39c,0x39c,0x39c,0x39c,0x39c,0x39c,0x39c,0x39c,0x39c,0x39c,0x39c,0x39c,0x39c,0x39c,";
"    0x39c,0x39c,0x39c,0x39c,0x39c,0x39c,0x39c,0x39c,0x39c,0x39c,0x39c,0x39c,0x39c,0x39c,0x39c,0x39c,";
"    0x39c,0x39c,0x39c,0x39c,0x39c,0x39c,0x39c,0x39c,0x39c,0x39c,0x39c,0x39c,0x39c,0x39c,0x39c,0x39c,";
"    0x39c,0x39c,0x39c,0x39c,0x39c,0x39c,0x39c,0x39c,0x39c,0x39c,0x39c,0x39c,0x39c,0x39c,0x39c,0x39c,";
"    0x39c,0x39c,0x39c,0x39c,0x39c,0x39c,0x39c,0x39c,0x39c,0x39c,0x39c,0x39c,0x39c,0x39c,0x39c,0x39c,";
"    0x39c,0x39c,0x39c,0x39c,0x39c,0x39c,0x39c,0x39c,0x39c,0x39c,0x39c,0x39c,0x39c,0x39c,0x39c,0x39c,";
"    0x39c,0x39c,0x39c,0x39c,0x39c,0x39c,0x39c,0x39c,0x39c,0x39c,0x39c,0x39c,0x39c,0x39c,0x39c,0x39c,";
"    0x39c,0x39c,0x39c,0x39c,0x39c,0x39c,0x39c,0x39c,0x39c,0x39c,0x39c,0x39c,0x39c,0x39c,0x39c,0x39c,";
"    0x39c,0x39c,0x39c,0x39c,0x39c,0x39c,0x39c,0x39c,0x39c,0x39c,0x39c,0x39c,0x39c,0x39c,0x39c,0x39c,";
"    0x39c,0x39c,0x39c,0x39c,0x39c,0x39c,0x39c,0x39c,0x39c,0x39c,0x39c,0x39c,0x39c,0x39c,0x39c,0x39c,";
"    0x39c,0x39c,0x39c,0x39c,0x39c,0x39c,0x39c,0x39c,0x39c,0x39c,0x39c,0x39c,0x39c,0x39c,0x39c,0x39c,";
"    0x39c,0x39c,0x39c,0x39c,0x39c,0x39c,0x39c,0x39c,0x39c,0x39c,0x39c,0x39c,0x39c,0x39c,0x39c,0x39c,";
"    0x39c,0x39c,0x39c,0x39c,0x39c,0x39c,0x39c,0x39c,0x39c,0x39c,0x39c,0x39c,0x39c,0x39c,0x39c,0x39c,";
"    0x39c,0x39c,0x39c,0x39c,0x39c,0x39c,0x39c,0x39c,0x39c,0x39c,0x39c,0x39c,0x39c,0x39c,0x39c,0x39c,";
"    0x39c,0x39c,0x39c,0x39c,0x39c,0x39c,0x39c,0x39c,0x39c,0x39c,0x39c,0x39c,0x39c,0x39c,0x39c,0x39c,";
"    0x39c,0x39c,0x39c,0x39c,0x39c,0x39c,0x39c,0x39c,0x39c,0x39c,0x39c,0x39c,0x39c,0x39c,0x39c,0x39c,";
"    0x39c,0x39c,0x39c,0x39c,0x39c,0x39c,0x39c,0x39c,0x39c,0x39c,0x39c,0x39c,0x39c,0x39c,0x39c,0x39c,";
"    0x39c,0x39c,0x39c,0x39c,0x39c,0x39c,0x39c,0x39c,0x39c,0x39c,0x39c,0x39c,0x39c,0x39c,0x39c,0x39c,";
"    0x39c,0x39c,0x39c,0x39c,0x39c,0x39c,0x39c,0x39c,0x39c,0x39c,0x39c,0x39c,0x39c,0x39c,0x39c,0x39c,";
"    0x39c,0x39c,0x39c,0x39c,0x39c,0x39c,0x39c,0x39c,0x39c,0x39c,0x39c,0x39c,0x39c,0x39c,0x39c,0x39c,";
"    0x39c,0x39c,0x39c,0x39c,0x39c,0x39c,0x39c,0x39c,0x39c,0x39c,0x39c,0x39c,0x39c,0x39c,0x39c,0x39c,";
"    0x39c,0x39c,0x39c,0x39c,0x39c,0x39c,0x39c,0x39c,0x39c,0x39c,0x39c,0x39c,0x39c,0x39c,0x39c,0x39c,";
"    0x39c,0x39c,0x39c,0x39c,0x39c,0x39c,0x39c,0x39c,0x39c,0x39c,0x39c,0x39c,0x39c,0x39c,0x39c,0x39c,";
"    0x39c,0x39c,0x39c,0x39c,0x39c,0x39c,0x39c,0x39c,0x39c,0x39c,0x39c,0x39c,0x39c,0x39c,0x39c,0x39c,";
"    0x39c,0x39c,0x39c,0x39c,0x39c,0x39c,0x39c,0x39c,0x39c,0x39c,0x39c,0x39c,0x39c,0x39c,0x39c,0x39c,";
"    0x39c,0x39c,0x39c,0x39c,0x39c,0x39c,0x39c,0x39c,0x39c,0x39c,0x39c,0x39c,0x39c,0x39c,0x39c,0x39c,";
"    0x39c,0x39c,0x39c,0x39c,0x39c,0x39c,0x39c,0x39c,0x39c,0x39c,0x39c,0x39c,0x39c,0x39c,0x39c,0x39c,";
"    0x39c,0x39c,0x39c,0x39c,0x39c,0x39c,0x39c,0x39c,0x39c,0x39c,0x39c,0x39c,0x39c,0x39c,0x39c,0x39c,";
"    0x39c,0x39c,0x39c,0x39c,0x39c,0x39c,0x39c,0x39c,0x39c,0x39c,0x39c,0x39c,0x39c,0x39c,0x39c,0x39c,";
"    0x39c,0x39c,0x39c,0x39c,0x39c,0x39c,0x39c,0x39c,0x39c,0x39c,0x39c,0x39c,0x39c,0x39c,0x39c,0x39c,";
"    0x39c,0x39c,0x39c,0x39c,0x39c,0x39c,0x39c,0x39c,0x39c,0x39c,0x39c,0x39c,0x39c,0x39c,0x39c,0x39c,";
"    0x39c,0x39c,0x39c,0x39c,0x39c,0x39c,0x39c,0x39c,0x39c,0x39c,0x39c,0x39c,0x39c,0x39c,0x39c,0x39c,";
"    0x39c,0x39c,0x39c,0x39c,0x39c,0x39c,0x39c,0x39c,0x39c,0x39c,0x39c,0x39c,0x39c,0x39c,0x39c,0x39c,";
"    0x39c,0x39c,0x39c,0x39c,0x39c,0x39c,0x39c,0x39c,0x39c,0x39c,0x39c,0x39c,0x39c,0x39c,0x39c,0x39c,";
"    0x39c,0x39c,0x39c,0x39c,0x39c,0x39c,0x39c,0x39c,0x39c,0x39c,0x39c,0x39c,0x39c,0x39c,0x39c,0x39c,";
"    0x39c,0x39c,0x39c,0x39c,0x39c,0x39c,0x39c,0x39c,0x39c,0x39c,0x39c,0x39c,0x39c,0x39c,0x39c,0x39c,";
"    0x39c,0x39c,0x39c,0x39c,0x39c,0x39c,0x39c,0x39c,0x39c,0x39c,0x39c,0x39c,0x39c,0x39c,0x39c,0x39c,";
"    0x39c,0x39c,0x39c,0x39c,0x39c,0x39c,0x39c,0x39c,0x915,0x909,0x90d,0x49b,0x49b,0x49b,0x49b,0x49b,";
"    0x49b,0x49b,0x49b,0x49b,0x49b,0x49b,0x49b,0x49b,0x49b,0x91d,0x49b,0x49b,0x49b,0x49b,0x925,0x929,";
"    0x931,0x939,0x93d,0x945,0x49b,0x49b,0x49b,0x949,0x951,0x38c,0x959,0x961,0x39c,0x39c,0x39c,0x969,";
"    0x39c,0x39c,0x39c,0x39c,0x39c,0x39c,0x39c,0x39c,0x39c,0x39c,0x39c,0x39c,0x39c,0x39c,0x39c,0x39c,";
"    0x39c,0x39c,0x39c,0x39c,0x39c,0x39c,0x39c,0x39c,0x39c,0x39c,0x39c,0x39c,0x39c,0x39c,0x39c,0x39c,";
"    0xe70,0xe70,0xeb0,0xef0,0xe70,0xe70,0xe70,0xe70,0xe70,0xe70,0xf28,0xf68,0xfa8,0xfb8,0xff8,0x1004,";
"    0xe70,0xe70,0x1044,0xe70,0xe70,0xe70,0x107c,0x10bc,0x10fc,0x113c,0x1174,0x11b4,0x11f4,0x122c,0x126c,0x12ac,";
"    0xa40,0xa80,0xac0,0xaff,0x1a0,0x1a0,0xb3f,0x1a0,0x1a0,0x1a0,0x1a0,0x1a0,0x1a0,0xb68,0x1a0,0x1a0,";
"    0x1a0,0x1a0,0x1a0,0x1a0,0x1a0,0x1a0,0x1a0,0xba8,0x1a0,0x1a0,0xbdd,0xc1d,0xc5d,0xc9d,0xcdd,0xd1d,";
"    0x1a0,0x1a0,0x1a0,0x1a0,0x1a0,0x1a0,0x1a0,0x1a0,0x1a0,0x1a0,0x1a0,0x1a0,0x1a0,0x1a0,0x1a0,0x1a0,";
"    0x1a0,0x1a0,0x1a0,0x1a0,0x1a0,0x1a0,0x1a0,0x1a0,0x1a0,0x1a0,0x1a0,0x1a0,0x1a0,0x1a0,0x1a0,0xd5d,";
"    0x1a0,0x1a0,0x1a0,0x1a0,0x1a0,0x1a0,0x1a0,0x1a0,0x1a0,0x1a0,0x1a0,0x1a0,0x1a0,0x1a0,0x1a0,0x1a0,";
"    0x1a0,0x1a0,0x1a0,0x1a0,0x1a0,0x1a0,0x1a0,0x1a0,0x1a0,0x1a0,0x1a0,0x1a0,0x1a0,0x1a0,0x1a0,0xd5d,";
"    0x1a0,0x1a0,0x1a0,0x1a0,0x1a0,0x1a0,0x1a0,0x1a0,0x1a0,0x1a0,0x1a0,0x1a0,0x1a0,0x1a0,0x1a0,0x1a0,";
"    0x1a0,0x1a0,0x1a0,0x1a0,0x1a0,0x1a0,0x1a0,0x1a0,0x1a0,0x1a0,0x1a0,0x1a0,0x1a0,0x1a0,0x1a0,0xd5d,";
"    0x1a0,0x1a0,0x1a0,0x1a0,0x1a0,0x1a0,0x1a0,0x1a0,0x1a0,0x1a0,0x1a0,0x1a0,0x1a0,0x1a0,0x1a0,0x1a0,";
"    0x1a0,0x1a0,0x1a0,0x1a0,0x1a0,0x1a0,0x1a0,0x1a0,0x1a0,0x1a0,0x1a0,0x1a0,0x1a0,0x1a0,0x1a0,0xd5d,";
"    0x1a0,0x1a0,0x1a0,0x1a0,0x1a0,0x1a0,0x1a0,0x1a0,0x1a0,0x1a0,0x1a0,0x1a0,0x1a0,0x1a0,0x1a0,0x1a0,";
"    0x1a0,0x1a0,0x1a0,0x1a0,0x1a0,0x1a0,0x1a0,0x1a0,0x1a0,0x1a0,0x1a0,0x1a0,0x1a0,0x1a0,0x1a0,0xd5d,";
"    0x1a0,0x1a0,0x1a0,0x1a0,0x1a0,0x1a0,0x1a0,0x1a0,0x1a0,0x1a0,0x1a0,0x1a0,0x1a0,0x1a0,0x1a0,0x1a0,";
"    0x1a0,0x1a0,0x1a0,0x1a0,0x1a0,0x1a0,0x1a0,0x1a0,0x1a0,0x1a0,0x1a0,0x1a0,0x1a0,0x1a0,0x1a0,0xd5d,";
"    0x1a0,0x1a0,0x1a0,0x1a0,0x1a0,0x1a0,0x1a0,0x1a0,0x1a0,0x1a0,0x1a0,0x1a0,0x1a0,0x1a0,0x1a0,0x1a0,";
"    0x1a0,0x1a0,0x1a0,0x1a0,0x1a0,0x1a0,0x1a0,0x1a0,0x1a0,0x1a0,0x1a0,0x1a0,0x1a0,0x1a0,0x1a0,0xd5d,";
"    0x1a0,0x1a0,0x1a0,0x1a0,0x1a0,0x1a0,0x1a0,0x1a0,0x1a0,0x1a0,0x1a0,0x1a0,0x1a0,0x1a0,0x1a0,0x1a0,";
"    0x1a0,0x1a0,0x1a0,0x1a0,0x1a0,0x1a0,0x1a0,0x1a0,0x1a0,0x1a0,0x1a0,0x1a0,0x1a0,0x1a0,0x1a0,0xd5d,";
"    0x1a0,0x1a0,0x1a0,0x1a0,0x1a0,0x1a0,0x1a0,0x1a0,0x1a0,0x1a0,0x1a0,0x1a0,0x1a0,0x1a0,0x1a0,0x1a0,";
"    0x1a0,0x1a0,0x1a0,0x1a0,0x1a0,0x1a0,0x1a0,0x1a0,0x1a0,0x1a0,0x1a0,0x1a0,0x1a0,0x1a0,0x1a0,0xd5d,";
"    0x1a0,0x1a0,0x1a0,0x1a0,0x1a0,0x1a0,0x1a0,0x1a0,0x1a0,0x1a0,0x1a0,0x1a0,0x1a0,0x1a0,0x1a0,0x1a0,";
"    0x1a0,0x1a0,0x1a0,0x1a0,0x1a0,0x1a0,0x1a0,0x1a0,0x1a0,0x1a0,0x1a0,0x1a0,0x1a0,0x1a0,0x1a0,0xd5d,";
"    0x1a0,0x1a0,0x1a0,0x1a0,0x1a0,0x1a0,0x1a0,0x1a0,0x1a0,0x1a0,0x1a0,0x1a0,0x1a0,0x1a0,0x1a0,0x1a0,";
"    0x1a0,0x1a0,0x1a0,0x1a0,0x1a0,0x1a0,0x1a0,0x1a0,0x1a0,0x1a0,0x1a0,0x1a0,0x1a0,0x1a0,0x1a0,0xd5d,";
"    0x1a0,0x1a0,0x1a0,0x1a0,0x1a0,0x1a0,0x1a0,0x1a0,0x1a0,0x1a0,0x1a0,0x1a0,0x1a0,0x1a0,0x1a0,0x1a0,";
"    0x1a0,0x1a0,0x1a0,0x1a0,0x1a0,0x1a0,0x1a0,0x1a0,0x1a0,0x1a0,0x1a0,0x1a0,0x1a0,0x1a0,0x1a0,0xd5d,";
"    0xd9d,0xdad,0x1a0,0x1a0,0x1a0,0x1a0,0x1a0,0x1a0,0x1a0,0x1a0,0x1a0,0x1a0,0x1a0,0x1a0,0x1a0,0x1a0,";
"    0x1a0,0x1a0,0x1a0,0x1a0,0x1a0,0x1a0,0x1a0,0x1a0,0x1a0,0x1a0,0x1a0,0x1a0,0x1a0,0x1a0,0x1a0,0xd5d,";
"    0x1a0,0x1a0,0x1a0,0x1a0,0x1a0,0x1a0,0x1a0,0x1a0,0x1a0,0x1a0,0x1a0,0x1a0,0x1a0,0x1a0,0x1a0,0x1a0,";
"    0x1a0,0x1a0,0x1a0,0x1a0,0x1a0,0x1a0,0x1a0,0x1a0,0x1a0,0x1a0,0x1a0,0x1a0,0x1a0,0x1a0,0x1a0,0xd5d,";
"    0x1a0,0x1a0,0x1a0,0x1a0,0x1a0,0x1a0,0x1a0,0x1a0,0x1a0,0x1a0,0x1a0,0x1a0,0x1a0,0x1a0,0x1a0,0x1a0,";
"    0x1a0,0x1a0,0x1a0,0x1a0,0x1a0,0x1a0,0x1a0,0x1a0,0x1a0,0x1a0,0x1a0,0x1a0,0x1a0,0x1a0,0x1a0,0xd5d,";
"    0x39c,0x39c,0x39c,0x39c,0x39c,0x39c,0x39c,0x39c,0x971,0x39c,0x669,0x669,0x979,0x60c,0x39c,0x501,";
"    0x39c,0x39c,0x39c,0x39c,0x39c,0x39c,0x39c,0x981,0x39c,0x39c,0x39c,0x988,0x39c,0x39c,0x39c,0x39c,";
"    0x39c,0x39c,0x39c,0x39c,0x39c,0x39c,0x39c,0x39c,0x39c,0x39c,0x39c,0x39c,0x39c,0x39c,0x39c,0x39c,";
"    0x39c,0x39c,0x39c,0x39c,0x39c,0x39c,0x39c,0x39c,0x39c,0x39c,0x39c,0x39c,0x39c,0x39c,0x39c,0x39c,";
"    0x431,0x431,0x431,0x431,0x431,0x431,0x431,0x431,0x990,0x431,0x431,0x431,0x431,0x431,0x431,0x431,";
"    0x998,0x99c,0x431,0x431,0x431,0x431,0x9ac,0x9a4,0x431,0x9b4,0x431,0x431,0x9bc,0x9c2,0x431,0x431,";
"    0x431,0x431,0x431,0x431,0x431,0x431,0x431,0x431,0x9d2,0x9ca,0x431,0x431,0x431,0x431,0x431,0x431,";
"    0x431,0x431,0x431,0x9da,0x431,0x9e2,0x431,0x431,0x431,0x9e6,0x9ed,0x9f3,0x431,0x9f7,0x9ff,0x431,";
"    0x508,0xa07,0xa0e,0xa15,0x413,0xa18,0x39c,0x39c,0x4ee,0xa1f,0x39c,0xa25,0x413,0xa2a,0xa32,0x39c,";
"    0x39c,0xa37,0x39c,0x39c,0x39c,0x39c,0x82c,0xa3f,0x413,0x590,0x56b,0xa46,0x39c,0x39c,0x39c,0x39c,";
"    0x39c,0xa07,0xa4e,0x39c,0x39c,0xa56,0xa5e,0x39c,0x39c,0x39c,0x39c,0x39c,0x39c,0xa62,0xa6a,0x39c,";
"    0x39c,0xa72,0x56b,0xa7a,0x39c,0xa80,0x39c,0x39c,0x5fc,0xa88,0x39c,0x39c,0x39c,0x39c,0x39c,0x39c,";
"    0xa8d,0x39c,0x39c,0x39c,0x39c,0x39c,0x39c,0x39c,0xa94,0xa9c,0x39c,0x39c,0x39c,0xa9f,0x56b,0xaa7,";
"    0xaab,0xab3,0x39c,0xaba,0x39c,0x39c,0x39c,0x39c,0x39c,0x39c,0x39c,0x39c,0x39c,0x39c,0x39c,0x39c,";
"    0xac1,0x39c,0x39c,0xacf,0xac9,0x39c,0x39c,0x39c,0xad7,0xadf,0x39c,0xae3,0x39c,0x39c,0x39c,0x39c,";
"    0x39c,0x39c,0x39c,0x39c,0x39c,0x39c,0x592,0x39c,0x39c,0x39c,0x39c,0x39c,0x39c,0xaf0,0xaeb,0x39c,";
"    0x39c,0x39c,0x39c,0x39c,0x39c,0x39c,0x39c,0x39c,0x39c,0x39c,0x39c,0x39c,0x39c,0x39c,0x39c,0x39c,";
"    0x39c,0x39c,0x39c,0x39c,0x39c,0x39c,0x39c,0x39c,0x39c,0x39c,0x39c,0x39c,0x39c,0x39c,0x39c,0x39c,";
"    0xaf8,0x39c,0x39c,0x39c,0x39c,0x39c,0x39c,0x39c,0x39c,0x39c,0x39c,0x39c,0x39c,0x39c,0x39c,0x39c,";
"    0x39c,0x39c,0x39c,0x39c,0x39c,0x39c,0x39c,0x39c,0x39c,0x39c,0x39c,0x39c,0x39c,0x39c,0x39c,0xaff,";
"    0x39c,0xb05,0x39c,0x39c,0x39c,0x39c,0x39c,0x39c,0x39c,0x39c,0x39c,0x39c,0x39c,0x39c,0x39c,0x39c,";
"    0x39c,0x39c,0x39c,0x39c,0x39c,0x39c,0x39c,0x39c,0x39c,0x39c,0x39c,0x39c,0x39c,0x39c,0x39c,0x39c,";
"    0x39c,0x39c,0xa26,0x39c,0xb0b,0x39c,0x39c,0xb13,0x39c,0x39c,0x39c,0x39c,0x39c,0x39c,0x39c,0x39c,";
"    0x39c,0x39c,0x39c,0x39c,0x39c,0x39c,0x39c,0x39c,0x39c,0x39c,0x39c,0x39c,0x39c,0x39c,0x39c,0x39c,";
"    0x39c,0x39c,0x39c,0x39c,0x39c,0x39c,0x39c,0x39c,0x39c,0x39c,0x39c,0x39c,0x522,0xb1b,0x39c,0x39c,";
"    0x39c,0x39c,0x39c,0x39c,0x39c,0x39c,0x39c,0x39c,0x39c,0x39c,0x39c,0x39c,0x39c,0x39c,0x39c,0x39c,";
"    0x39c,0x39c,0x39c,0x39c,0x39c,0x39c,0x39c,0x39c,0xb22,0xb2a,0xb30,0x39c,0x39c,0x669,0x669,0xb38,";
"    0x39c,0x39c,0x39c,0x39c,0x39c,0x669,0x669,0x83f,0x39c,0x39c,0x39c,0x39c,0x39c,0x39c,0x39c,0x39c,";
"    0x39c,0x39c,0x39c,0x39c,0x39c,0x39c,0x39c,0x39c,0x39c,0x39c,0x39c,0x39c,0x39c,0x39c,0x39c,0x39c,";
"    0x39c,0x39c,0x39c,0xb3a,0x39c,0xb41,0x39c,0xb3d,0x39c,0xb44,0x39c,0xb4c,0xb50,0x39c,0x39c,0x39c,";
"    0x39c,0x39c,0x39c,0x39c,0x39c,0x39c,0x39c,0x39c,0x39c,0x39c,0x39c,0x39c,0x39c,0x3ea,0xb58,0x3ea,";
"    0xb5f,0xb66,0xb6e,0x39c,0x39c,0x39c,0x39c,0x39c,0x39c,0x39c,0x39c,0x39c,0x39c,0x39c,0x39c,0x39c,";
"    0x39c,0x39c,0x39c,0x39c,0x39c,0x39c,0x39c,0x39c,0x39c,0x39c,0x39c,0x39c,0x39c,0x39c,0x39c,0x39c,";
"    0x39c,0x39c,0x39c,0x39c,0x39c,0x39c,0x39c,0x39c,0x39c,0x39c,0x39c,0x39c,0x39c,0xb76,0xb7e,0x39c,";
"    0x39c,0x39c,0x39c,0x39c,0x39c,0x39c,0xb05,0x39c,0x39c,0x39c,0x39c,0x39c,0x39c,0x39c,0x39c,0x39c,";
"    0x39c,0x39c,0x39c,0x39c,0xb83,0x39c,0x39c,0x39c,0x39c,0x39c,0x39c,0x39c,0x39c,0x39c,0x39c,0x39c,";
"    0x39c,0x39c,0x39c,0x39c,0x39c,0x39c,0x39c,0x39c,0x39c,0x39c,0x39c,0x39c,0x39c,0x39c,0x39c,0x39c,";
"    0x39c,0x39c,0x39c,0x39c,0x39c,0x39c,0x39c,0x39c,0x39c,0x39c,0x39c,0x39c,0x39c,0x431,0x431,0x431,";
"    0x431,0x431,0x431,0xb8b,0x431,0xb93,0xb93,0xb9a,0x431,0x431,0x431,0x431,0x431,0x431,0x431,0x431,";
"    0x431,0x431,0x431,0x431,0x431,0x431,0x431,0x431,0x431,0x431,0x431,0x431,0x431,0x431,0x431,0x431,";
"    0x90d,0x49b,0x49b,0x431,0x431,0x49b,0x49b,0x9f3,0x431,0x431,0x431,0x431,0x431,0x49b,0x49b,0x49b,";
"    0x49b,0x49b,0x49b,0x49b,0xba2,0x431,0x431,0x431,0x431,0x431,0x431,0x431,0x431,0x669,0xbaa,0x669,";
"    0x669,0x66c,0xbaf,0xbb3,0x84f,0xbbb,0x3be,0x39c,0xbc1,0x39c,0xbc6,0x39c,0x39c,0x39c,0x39c,0x39c,";
"    0x779,0x39c,0x39c,0x39c,0x39c,0x669,0x669,0x669,0x669,0x669,0x669,0x669,0x669,0x669,0x669,0x669,";
"    0x669,0x669,0x669,0x669,0x669,0x669,0x669,0x669,0x669,0x669,0x669,0x669,0x669,0x669,0x669,0x669,";
"    0x669,0x669,0x669,0x66b,0x979,0x669,0x669,0x669,0x66c,0x669,0x669,0xbce,0x66e,0xbaa,0x669,0xbd6,";
"    0x669,0xbde,0xbe3,0x39c,0x39c,0x669,0x669,0x669,0xbeb,0x669,0x669,0x798,0x669,0x669,0x669,0x66c,";
"    0xbf2,0xbfa,0xc00,0xc05,0x39c,0x669,0x669,0x669,0x669,0xc0d,0x669,0x788,0xc15,0x39c,0x39c,0x39c,";
"    0x39c,0x39c,0x39c,0x39c,0x39c,0x39c,0x39c,0x39c,0x39c,0x39c,0x39c,0x39c,0x39c,0x39c,0x39c,0x39c,";
"    0x39c,0x39c,0x39c,0x39c,0x39c,0x39c,0x39c,0x39c,0x39c,0x39c,0x39c,0x39c,0xc1c,0x39c,0x39c,0x39c,";
"    0x39c,0x39c,0x39c,0x39c,0x39c,0x39c,0x39c,0x39c,0x39c,0x39c,0x39c,0x39c,0x39c,0x39c,0x39c,0x39c,";
"    0x39c,0x39c,0x39c,0x39c,0x39c,0x39c,0x39c,0x39c,0x39c,0x39c,0x39c,0x39c,0x39c,0x39c,0x39c,0x39c,";
"    0x39c,0x39c,0x39c,0x39c,0x39c,0x39c,0x39c,0x39c,0x39c,0x39c,0x39c,0x39c,0x39c,0x39c,0x39c,0x39c,";
"    0x39c,0x39c,0x39c,0x39c,0x39c,0x39c,0x39c,0x39c,0x39c,0x39c,0x39c,0x39c,0xc1c,0xc2c,0xc24,0xc24,";
"    0xc24,0xc2d,0xc2d,0xc2d,0xc2d,0x3ea,0x3ea,0x3ea,0x3ea,0x3ea,0x3ea,0x3ea,0xc35,0xc2d,0xc2d,0xc2d,";
"    0xc2d,0xc2d,0xc2d,0xc2d,0xc2d,0xc2d,0xc2d,0xc2d,0xc2d,0xc2d,0xc2d,0xc2d,0xc2d,0xc2d,0xc2d,0xc2d,";
"    0xc2d,0xc2d,0xc2d,0xc2d,0xc2d,0xc2d,0xc2d,0xc2d,0xc2d,0xc2d,0xc2d,0xc2d,0xc2d,0xc2d,0xc2d,0xc2d,";
"    0xc2d,0xc2d,0xc2d,0xc2d,0xc2d,0xc2d,0xc2d,0xc2d,0xc2d,0xc2d,0xc2d,0xc2d,0xc2d,0xc2d,0xc2d,0xc2d,";
"    0xc2d,0xc2d,0xc2d,0xc2d,0xc2d,0xc2d,0xc2d,0xc2d,0xc2d,0xc2d,0xc2d,0xc2d,0xc2d,0x37b,0x37b,0x37b,";
"    0x12,0x12,0x12,0x12,0x12,0x12,0x12,0x12,0x12,8,7,8,9,7,0x12,0x12,";
"    0x12,0x12,0x12,0x12,0x12,0x12,0x12,0x12,0x12,0x12,0x12,0x12,7,7,7,8,";
"    9,0xa,0xa,4,4,4,0xa,0xa,0x310a,0xf20a,0xa,3,6,3,6,6,";
"    2,2,2,2,2,2,2,2,2,2,6,0xa,0x500a,0xa,0xd00a,0xa,";
"    0xa,0,0,0,0,0,0,0,0,0,0,0,0,0,0,0,";
"    0,0,0,0,0,0,0,0,0,0,0,0x510a,0xa,0xd20a,0xa,0xa,";
"    0xa,0,0,0,0,0,0,0,0,0,0,0,0,0,0,0,";
"    0,0,0,0,0,0,0,0,0,0,0,0x510a,0xa,0xd20a,0xa,0x12,";
"    0,0,0,0,0,0,0,0,0,0,0,0,0,0,0,0,";
"    0,0,0,0,0,0,0,0,0,0,0,0,0,0,0,0,";
"    0,0,0,0,0,0,0,0,0,0,0,0,0,0,0,0,";
"    0,0,0,0,0,0,0,0,0,0,0,0,0,0,0,0,";
"    0x12,0x12,0x12,0x12,0x12,7,0x12,0x12,0x12,0x12,0x12,0x12,0x12,0x12,0x12,0x12,";
"    0x12,0x12,0x12,0x12,0x12,0x12,0x12,0x12,0x12,0x12,0x12,0x12,0x12,0x12,0x12,0x12,";
"    6,0xa,4,4,4,4,0xa,0xa,0xa,0xa,0,0x900a,0xa,0xb2,0xa,0xa,";
"    4,4,2,2,0xa,0,0xa,0xa,0xa,2,0,0x900a,0xa,0xa,0xa,0xa,";
"    0,0,0,0,0,0,0,0,0,0,0,0,0,0,0,0,";
"    0,0,0,0,0,0,0,0xa,0,0,0,0,0,0,0,0,";
"    0,0,0,0,0,0,0,0,0,0,0,0,0,0,0,0,";
"    0,0,0,0,0,0,0,0xa,0,0,0,0,0,0,0,0,";
"    0,0,0,0,0,0,0,0,0,0,0,0,0,0,0,0,";
"    0,0,0,0,0,0,0,0,0,0,0,0,0,0,0,0,";
"    0,0,0,0,0,0,0,0,0,0,0,0,0,0,0,0,";
"    0,0xa,0xa,0,0,0,0,0,0,0,0xa,0xa,0xa,0xa,0xa,0xa,";
"    0xa,0xa,0xa,0xa,0xa,0xa,0xa,0xa,0,0,0xa,0xa,0xa,0xa,0xa,0xa,";
"    0xa,0xa,0xa,0xa,0xa,0xa,0xa,0xa,0,0,0,0,0,0xa,0xa,0xa,";
"    0xa,0xa,0xa,0xa,0xa,0xa,0,0xa,0xa,0xa,0xa,0xa,0xa,0xa,0xa,0xa,";
"    0xa,0xa,0xa,0xa,0xa,0xa,0xa,0xa,0xb1,0xb1,0xb1,0xb1,0xb1,0xb1,0xb1,0xb1,";
"    0xb1,0xb1,0xb1,0xb1,0xb1,0xb1,0xb1,0xb1,0xb1,0xb1,0xb1,0xb1,0xb1,0xb1,0xb1,0xb1,";
"    0xb1,0xb1,0xb1,0xb1,0xb1,0xb1,0xb1,0xb1,0xb1,0xb1,0xb1,0xb1,0xb1,0xb1,0xb1,0xb1,";
"    0xb1,0xb1,0xb1,0xb1,0xb1,0xb1,0xb1,0xb1,0xb1,0xb1,0xb1,0xb1,0xb1,0xb1,0xb1,0xb1,";
"    0xb1,0xb1,0xb1,0xb1,0xb1,0xb1,0xb1,0xb1,0,0,0,0,0xa,0xa,0,0,";
"    0,0,0,0,0,0,0xa,0,0,0,0,0,0xa,0xa,0,0xa,";
"    0,0,0,0,0,0,0,0,0,0,0,0,0,0,0,0,";
"    0,0,0,0,0,0,0,0,0,0,0,0,0,0,0,0,";
"    0,0,0,0,0,0,0,0,0,0,0,0,0,0,0,0,";
"    0,0,0,0,0,0,0,0,0,0,0xa,0,0,0,0,0,";
"    0,0,0,0,0,0,0,0xb1,0xb1,0xb1,0xb1,0xb1,0xb1,0xb1,0,0,";
"    0,0,0,0,0,0,0,0,0,0,0,0,0,0,0,0,";
"    0,0,0,0,0,0,0,0,0,0,0,0,0,0,0,0,";
"    0,0,0,0,0,0,0,0,0,0,0,0,0,0,0,0,";
"    0,0,0,0,0,0,0xa,0,0,0xa,0xa,4,1,0xb1,0xb1,0xb1,";
"    0xb1,0xb1,0xb1,0xb1,0xb1,0xb1,0xb1,0xb1,0xb1,0xb1,0xb1,0xb1,0xb1,0xb1,0xb1,0xb1,";
"    0xb1,0xb1,0xb1,0xb1,0xb1,0xb1,0xb1,0xb1,0xb1,0xb1,0xb1,0xb1,0xb1,0xb1,0xb1,0xb1,";
"    0xb1,0xb1,0xb1,0xb1,0xb1,0xb1,0xb1,0xb1,0xb1,0xb1,1,0xb1,1,0xb1,0xb1,1,";
"    0xb1,0xb1,1,0xb1,1,1,1,1,1,1,1,1,1,1,1,1,";
"    1,1,1,1,1,1,1,1,1,1,1,1,1,1,1,1,";
"    1,1,1,1,1,1,1,1,1,1,1,1,1,1,1,1,";
"    1,1,1,1,1,1,1,1,1,1,1,1,5,5,5,5,";
"    5,5,0xa,0xa,0xd,4,4,0xd,6,0xd,0xa,0xa,0xb1,0xb1,0xb1,0xb1,";
"    0xb1,0xb1,0xb1,0xb1,0xb1,0xb1,0xb1,0xd,0x8ad,0xd,0xd,0xd,0x4d,0xd,0x8d,0x8d,";
"    0x8d,0x8d,0x4d,0x8d,0x4d,0x8d,0x4d,0x4d,0x4d,0x4d,0x4d,0x8d,0x8d,0x8d,0x8d,0x4d,";
"    0x4d,0x4d,0x4d,0x4d,0x4d,0x4d,0x4d,0x4d,0x4d,0x4d,0x4d,0x4d,0x2d,0x4d,0x4d,0x4d,";
"    0x4d,0x4d,0x4d,0x4d,0x8d,0x4d,0x4d,0xb1,0xb1,0xb1,0xb1,0xb1,0xb1,0xb1,0xb1,0xb1,";
"    0xb1,0xb1,0xb1,0xb1,0xb1,0xb1,0xb1,0xb1,0xb1,0xb1,0xb1,0xb1,5,5,5,5,";
"    5,5,5,5,5,5,4,5,5,0xd,0x4d,0x4d,0xb1,0x8d,0x8d,0x8d,";
"    0xd,0x8d,0x8d,0x8d,0x4d,0x4d,0x4d,0x4d,0x4d,0x4d,0x4d,0x4d,0x8d,0x8d,0x8d,0x8d,";
"    0x8d,0x8d,0x8d,0x8d,0x8d,0x8d,0x8d,0x8d,0x8d,0x8d,0x8d,0x8d,0x8d,0x8d,0x4d,0x4d,";
"    0x4d,0x4d,0x4d,0x4d,0x4d,0x4d,0x4d,0x4d,0x4d,0x4d,0x4d,0x4d,0x4d,0x4d,0x4d,0x4d,";
"    0x4d,0x4d,0x4d,0x4d,0x4d,0x4d,0x4d,0x4d,0x4d,0x4d,0x4d,0x4d,0x4d,0x4d,0x4d,0x4d,";
"    0x4d,0x4d,0x4d,0x4d,0x8d,0x4d,0x4d,0x8d,0x8d,0x8d,0x8d,0x8d,0x8d,0x8d,0x8d,0x8d,";
"    0x4d,0x8d,0x4d,0x8d,0x4d,0x4d,0x8d,0x8d,0xd,0x8d,0xb1,0xb1,0xb1,0xb1,0xb1,0xb1,";
"    0xb1,5,0xa,0xb1,0xb1,0xb1,0xb1,0xb1,0xb1,0xd,0xd,0xb1,0xb1,0xa,0xb1,0xb1,";
"    0xb1,0xb1,0x8d,0x8d,2,2,2,2,2,2,2,2,2,2,0x4d,0x4d,";
"    0x4d,0xd,0xd,0x4d,0xd,0xd,0xd,0xd,0xd,0xd,0xd,0xd,0xd,0xd,0xd,0xd,";
"    0xd,0xd,0xd,0xad,0x8d,0xb1,0x4d,0x4d,0x4d,0x8d,0x8d,0x8d,0x8d,0x8d,0x4d,0x4d,";
"    0x4d,0x4d,0x8d,0x4d,0x4d,0x4d,0x4d,0x4d,0x4d,0x4d,0x4d,0x4d,0x8d,0x4d,0x8d,0x4d,";
"    0x8d,0x4d,0x4d,0x8d,0xb1,0xb1,0xb1,0xb1,0xb1,0xb1,0xb1,0xb1,0xb1,0xb1,0xb1,0xb1,";
"    0xb1,0xb1,0xb1,0xb1,0xb1,0xb1,0xb1,0xd,0xd,0x8d,0x4d,0x4d,0x4d,0x4d,0x4d,0x4d,";
"    0x4d,0x4d,0x4d,0x4d,0x4d,0x8d,0x8d,0x8d,0x4d,0x4d,0x4d,0x4d,0x4d,0x4d,0x4d,0x4d,";
"    0x4d,0x4d,0x4d,0x4d,0x4d,0x4d,0x4d,0x8d,0x8d,0x4d,0x4d,0x4d,0x4d,0x8d,0x4d,0x8d,";
"    0x8d,0x4d,0x4d,0x4d,0x8d,0x8d,0x4d,0x4d,0x4d,0x4d,0x4d,0x4d,0xd,0xd,0xd,0xd,";
"    0xd,0xd,0xd,0xd,0xd,0xd,0xd,0xd,0xd,0xd,0xd,0xd,0xd,0xd,0xd,0xd,";
"    0xd,0xd,0xd,0xd,0xd,0xd,0xd,0xd,0xd,0xd,0xd,0xd,0xd,0xd,0xd,0xd,";
"    0xd,0xd,0xb1,0xb1,0xb1,0xb1,0xb1,0xb1,0xb1,0xb1,0xb1,0xb1,0xb1,0xd,0xd,0xd,";
"    0xd,0xd,0xd,0xd,0xd,0xd,0xd,0xd,0xd,0xd,0xd,0xd,1,1,1,1,";
"    1,1,1,1,1,1,0x41,0x41,0x41,0x41,0x41,0x41,0x41,0x41,0x41,0x41,";
"    0x41,0x41,0x41,0x41,0x41,0x41,0x41,0x41,0x41,0x41,0x41,0x41,0x41,0x41,0x41,0x41,";
"    0x41,0x41,0x41,0x41,0x41,0x41,0x41,0xb1,0xb1,0xb1,0xb1,0xb1,0xb1,0xb1,0xb1,0xb1,";
"    1,1,0xa,0xa,0xa,0xa,0x21,1,1,0xb1,1,1,0xb1,0xb1,0xb1,0xb1,";
"    1,0xb1,0xb1,0xb1,1,0xb1,0xb1,0xb1,0xb1,0xb1,1,1,1,1,1,1,";
"    1,1,1,1,1,1,1,1,1,1,1,1,1,1,1,1,";
"    1,1,0xb1,0xb1,0xb1,0xb1,1,0xb1,0xb1,0xb1,0xb1,0xb1,0x81,0x41,0x41,0x41,";
"    0x41,0x41,0x81,0x81,0x41,0x81,0x41,0x41,0x41,0x41,0x41,0x41,0x41,0x41,0x41,0x41,";
"    0x81,0x41,0x81,0x81,0x81,0xb1,0xb1,0xb1,1,1,1,1,0x4d,0xd,0x4d,0x4d,";
"    0x4d,0x4d,0xd,0x8d,0x4d,0x8d,0x8d,0xd,0xd,0xd,0xd,0xd,1,1,1,1,";
"    1,1,1,1,1,1,1,1,1,1,1,1,0xb1,0xb1,5,0xb1,";
"    0xb1,0xb1,0xb1,0xb1,0xb1,0xb1,0xb1,0xb1,0xb1,0xb1,0xb1,0xb1,0xb1,0xb1,0xb1,0xb1,";
"    0xb1,0xb1,0xb1,0xb1,0xb1,0xb1,0xb1,0xb1,0xb1,0xb1,0xb1,0xb1,0x4d,0x4d,0x4d,0x4d,";
"    0x4d,0x4d,0x4d,0x4d,0x4d,0x4d,0x8d,0x8d,0x8d,0xd,0x8d,0x4d,0x4d,0x8d,0x8d,0x4d,";
"    0x4d,0xd,0x4d,0x4d,0x4d,0x8d,0x4d,0x4d,0x4d,0x4d,0x4d,0x4d,0x4d,0x4d,0x4d,0x4d,";
"    0xd,0xd,0xd,0xd,0xd,0xd,0xd,0xd,0xd,0xd,0xd,0xb1,0xb1,0xb1,0xb1,0xb1,";
"    0xb1,0xb1,0xb1,0xb1,0xb1,0xb1,0xb1,0xb1,0xb1,0xb1,0xb1,0,0,0,0,0,";
"    0,0,0,0,0,0,0,0,0,0,0,0,0,0,0,0,";
"    0,0,0,0,0,0,0,0,0,0,0xb1,0,0xb1,0,0,0,";
"    0,0xb1,0xb1,0xb1,0xb1,0xb1,0xb1,0xb1,0xb1,0,0,0,0,0xb1,0,0,";
"    0,0xb1,0xb1,0xb1,0xb1,0xb1,0xb1,0xb1,0,0,0,0,0,0,0,0,";
"    0,0,0xb1,0xb1,0,0,0,0,0,0,0,0,0,0,0,0,";
"    0,0,0,0,0,0,0,0,0,0,0,0,0,0,0,0,";
"    0,0xb1,0,0,0,0,0,0,0,0,0,0,0,0,0,0,";
"    0,0,0,0,0,0,0,0,0,0,0,0,0,0,0,0,";
"    0xb1,0,0,0,0,0xb1,0xb1,0xb1,0xb1,0,0,0,0,0,0,0,";
"    0,0xb1,0,0,0,0,0,0,0,0,0,0,0,0,0,0,";
"    0,0,0,0,0,0,0xb1,0xb1,0,0,0,0,0,0,0,0,";
"    0,0,0,0,0,0,4,4,0,0,0,0,0,0,0,4,";
"    0,0,0xb1,0,0,0xb1,0xb1,0,0,0,0,0,0,0,0,0,";
"    0,0,0,0,0,0,0,0,0,0,0,0,0,0,0,0,";
"    0,0,0,0,0,0xb1,0xb1,0,0,0,0,0xb1,0xb1,0,0,0xb1,";
"    0xb1,0xb1,0,0,0,0xb1,0,0,0,0,0,0,0,0,0,0,";
"    0,0,0,0,0,0,0,0,0xb1,0xb1,0,0,0,0xb1,0,0,";
"    0,0,0,0,0,0,0,0,0,0xb1,0xb1,0xb1,0xb1,0xb1,0,0xb1,";
"    0xb1,0,0,0,0,0xb1,0,0,0,0,0,0,0,0,0,0,";
"    0,0,0,0,0,0,0,0,0,0,0xb1,0xb1,0,0,0,0,";
"    0,0,0,0,0,0,0,0,0,4,0,0,0,0,0,0,";
"    0,0,0xb1,0xb1,0xb1,0xb1,0xb1,0xb1,0,0,0,0,0,0,0,0,";
"    0,0,0,0,0,0,0,0,0,0,0,0,0,0,0,0,";
"    0,0,0,0,0xb1,0,0,0xb1,0,0xb1,0xb1,0xb1,0xb1,0,0,0,";
"    0,0,0,0,0,0xb1,0,0,0,0,0,0,0,0xb1,0xb1,0,";
"    0,0,0,0,0,0,0,0,0,0,0xb1,0,0,0,0,0,";
"    0,0,0,0,0,0,0,0,0,0,0,0,0,0,0,0,";
"    0,0,0,0,0,0,0,0,0xb1,0,0,0,0,0,0,0,";
"    0,0,0,0,0,0xb1,0,0,0,0,0,0,0,0,0,0,";
"    0,0,0,0,0,0,0,0,0,0,0,0xa,0xa,0xa,0xa,0xa,";
"    0xa,4,0xa,0,0,0,0,0,0xb1,0,0,0,0xb1,0,0,0,";
"    0,0,0,0,0,0,0,0,0,0,0,0,0,0,0,0,";
"    0,0,0,0,0,0,0,0,0,0,0,0,0,0,0xb1,0xb1,";
"    0xb1,0,0,0,0,0,0xb1,0xb1,0xb1,0,0xb1,0xb1,0xb1,0xb1,0,0,";
"    0,0,0,0,0,0xb1,0xb1,0,0,0,0,0,0,0,0,0,";
"    0,0,0xb1,0xb1,0,0,0,0,0,0,0,0,0,0,0,0,";
"    0,0,0,0,0,0,0,0,0xa,0xa,0xa,0xa,0xa,0xa,0xa,0,";
"    0,0,0,0,0,0,0,0,0,0,0,0,0,0,0,0,";
"    0,0,0,0,0,0,0,0,0,0,0,0,0xb1,0,0,0xa0,";
"    0,0,0,0,0,0,0xa0,0,0,0,0,0,0xb1,0xb1,0,0,";
"    0,0,0,0,0,0,0,0,0,0,0,0,0,0,0,0,";
"    0,0,0,0,0,0,0,0,0,0,0,0xb1,0xb1,0,0,0,";
"    0,0,0,0,0,0,0,0,0,0,0xb1,0,0,0,0,0,";
"    0,0,0xb1,0xb1,0xb1,0,0xb1,0,0,0,0,0,0,0,0,0,";
"    0,0,0,0,0,0,0,0,0,0xb1,0,0,0xb1,0xb1,0xb1,0xb1,";
"    0xb1,0xb1,0xb1,0,0,0,0,4,0,0,0,0,0,0,0,0xb1,";
"    0xb1,0xb1,0xb1,0xb1,0xb1,0xb1,0xb1,0,0,0,0,0,0,0,0,0,";
"    0,0,0,0,0,0,0,0,0,0xb1,0,0,0xb1,0xb1,0xb1,0xb1,";
"    0xb1,0xb1,0xb1,0xb1,0xb1,0,0,0,0,0,0,0,0,0,0,0,";
"    0xb1,0xb1,0xb1,0xb1,0xb1,0xb1,0,0,0,0,0,0,0,0,0,0,";
"    0,0,0,0,0,0,0,0,0,0,0,0,0,0,0,0,";
"    0xb1,0xb1,0,0,0,0,0,0,0,0,0,0,0,0,0,0,";
"    0,0,0,0,0,0,0,0,0,0xb1,0,0xb1,0,0xb1,0x310a,0xf20a,";
"    0x310a,0xf20a,0,0,0,0,0,0,0,0,0,0,0,0,0,0,";
"    0,0,0,0,0,0xb1,0xb1,0xb1,0xb1,0xb1,0xb1,0xb1,0xb1,0xb1,0xb1,0xb1,";
"    0xb1,0xb1,0xb1,0,0xb1,0xb1,0xb1,0xb1,0xb1,0,0xb1,0xb1,0,0,0,0,";
"    0,0xb1,0xb1,0xb1,0xb1,0xb1,0xb1,0xb1,0xb1,0xb1,0xb1,0xb1,0,0xb1,0xb1,0xb1,";
"    0xb1,0xb1,0xb1,0xb1,0xb1,0xb1,0xb1,0xb1,0xb1,0xb1,0xb1,0xb1,0xb1,0xb1,0xb1,0xb1,";
"    0xb1,0xb1,0xb1,0xb1,0xb1,0xb1,0xb1,0xb1,0xb1,0xb1,0xb1,0xb1,0xb1,0,0,0,";
"    0,0,0,0,0,0,0,0,0,0,0,0,0,0xb1,0xb1,0xb1,";
"    0xb1,0,0xb1,0xb1,0xb1,0xb1,0xb1,0xb1,0,0xb1,0xb1,0,0,0xb1,0xb1,0,";
"    0,0,0,0,0,0,0,0,0,0,0,0,0,0,0,0,";
"    0,0,0,0,0,0,0,0,0xb1,0xb1,0,0,0,0,0xb1,0xb1,";
"    0xb1,0,0,0,0,0,0,0,0,0,0,0,0,0,0,0,";
"    0,0xb1,0xb1,0xb1,0xb1,0,0,0,0,0,0,0,0,0,0,0,";
"    0,0,0xb1,0,0,0xb1,0xb1,0,0,0,0,0,0,0xb1,0,0,";
"    0,0,0,0,0,0,0,0,0,0,0,0,0,0xb1,0,0,";
"    0,0,0,0,0,0,0,0,0,0,0,0,0,0,0,0,";
"    0,0,0,0,0,0,0,0,0,0,0,0,0,0xb1,0xb1,0xb1,";
"    0,0,0,0,0,0,0,0,0,0,0,0,0,0,0,0,";
"    0xa,0xa,0xa,0xa,0xa,0xa,0xa,0xa,0xa,0xa,0,0,0,0,0,0,";
"    0xa,0,0,0,0,0,0,0,0,0,0,0,0,0,0,0,";
"    0,0,0,0,0,0,0,0,0,0,0,0,0,0,0,0,";
"    9,0,0,0,0,0,0,0,0,0,0,0,0,0,0,0,";
"    0,0,0,0,0,0,0,0,0,0,0,0x310a,0xf20a,0,0,0,";
"    0,0,0,0,0,0,0,0,0,0,0,0,0,0,0,0,";
"    0,0,0xb1,0xb1,0xb1,0,0,0,0,0,0,0,0,0,0,0,";
"    0,0,0,0,0,0,0,0,0,0,0,0,0xb1,0xb1,0,0xb1,";
"    0xb1,0xb1,0xb1,0xb1,0xb1,0xb1,0,0,0,0,0,0,0,0,0xb1,0,";
"    0,0xb1,0xb1,0xb1,0xb1,0xb1,0xb1,0xb1,0xb1,0xb1,0xb1,0xb1,0,0,0,0,";
"    0,0,0,4,0,0xb1,0,0,0x40,0x40,0x40,0x40,0x40,0x40,0x40,0x40,";
"    0x40,0x40,0x40,0x40,0x40,0x40,0x40,0x40,0x40,0x40,0x40,0x40,0x40,0x40,0x40,0x40,";
"    0x40,0x40,0x40,0x40,0x40,0x40,0x40,0x40,0x40,0xb1,0x40,0,0,0,0,0,";
"    0,0,0,0,0,0,0,0,0,0,0,0,0,0,0,0,";
"    0xa,0xa,0xa,0xa,0xa,0xa,0xa,0x4a,0xa,0xa,0x2a,0xb1,0xb1,0xb1,0x12,0,";
"    0,0,0,0,0,0,0,0,0,0,0,0,0,0,0,0,";
"    0x40,0x40,0x40,0x40,0x40,0x40,0x40,0x40,0x40,0x40,0x40,0x40,0x40,0x40,0x40,0x40,";
"    0x40,0x40,0x40,0x40,0x40,0x40,0x40,0x40,0x40,0,0,0,0,0,0,0,";
"    0,0xb1,0xb1,0x40,0x40,0x40,0x40,0x40,0x40,0x40,0x40,0x40,0x40,0x40,0x40,0x40,";
"    0x40,0x40,0x40,0x40,0x40,0x40,0x40,0x40,0x40,0x40,0x40,0x40,0xb1,0xb1,0xb1,0,";
"    0,0,0,0xb1,0xb1,0,0,0,0,0,0,0,0,0,0xb1,0,";
"    0,0,0,0,0,0xb1,0xb1,0xb1,0,0,0,0,0xa,0,0,0,";
"    0xa,0xa,0,0,0,0,0,0,0,0,0,0,0,0,0,0,";
"    0,0,0,0,0,0,0,0,0,0,0,0,0,0,0,0,";
"    0,0,0xa,0xa,0xa,0xa,0xa,0xa,0xa,0xa,0xa,0xa,0xa,0xa,0xa,0xa,";
"    0xa,0xa,0xa,0xa,0xa,0xa,0xa,0xa,0xa,0xa,0xa,0xa,0xa,0xa,0xa,0xa,";
"    0xa,0xa,0xa,0xa,0,0,0,0,0,0,0,0,0,0,0,0,";
"    0,0,0,0,0,0,0,0,0,0,0,0xb1,0xb1,0,0,0xb1,";
"    0,0,0,0,0,0,0,0,0,0,0,0,0,0,0,0,";
"    0,0,0,0,0,0,0xb1,0,0xb1,0xb1,0xb1,0xb1,0xb1,0xb1,0xb1,0,";
"    0xb1,0,0xb1,0,0,0xb1,0xb1,0xb1,0xb1,0xb1,0xb1,0xb1,0xb1,0,0,0,";
"    0,0,0,0xb1,0xb1,0xb1,0xb1,0xb1,0xb1,0xb1,0xb1,0xb1,0xb1,0,0,0xb1,";
"    0,0,0,0,0,0,0,0,0,0,0,0,0,0,0,0,";
"    0xb1,0xb1,0xb1,0xb1,0xb1,0xb1,0xb1,0xb1,0xb1,0xb1,0xb1,0xb1,0xb1,0xb1,0xb1,0xb1,";
"    0,0,0,0,0,0,0,0,0,0,0,0,0,0,0,0,";
"    0,0,0,0,0xb1,0,0xb1,0xb1,0xb1,0xb1,0xb1,0,0xb1,0,0,0,";
"    0,0,0,0,0,0,0,0,0,0,0,0xb1,0xb1,0xb1,0xb1,0xb1,";
"    0xb1,0xb1,0xb1,0xb1,0,0,0,0,0,0,0,0,0,0,0,0,";
"    0,0,0xb1,0xb1,0xb1,0xb1,0,0,0xb1,0xb1,0,0xb1,0xb1,0xb1,0,0,";
"    0,0,0,0,0,0,0,0,0,0,0,0,0,0,0,0,";
"    0,0,0xb1,0,0xb1,0xb1,0,0,0,0xb1,0,0xb1,0xb1,0xb1,0,0,";
"    0,0,0,0,0,0,0,0,0,0,0,0,0xb1,0xb1,0xb1,0xb1,";
"    0xb1,0xb1,0xb1,0xb1,0,0,0xb1,0xb1,0,0,0,0,0,0,0,0,";
"    0,0,0,0,0,0,0,0,0xb1,0xb1,0xb1,0,0xb1,0xb1,0xb1,0xb1,";
"    0xb1,0xb1,0xb1,0xb1,0xb1,0xb1,0xb1,0xb1,0xb1,0,0xb1,0xb1,0xb1,0xb1,0xb1,0xb1,";
"    0xb1,0,0,0,0,0xb1,0,0,0,0,0,0,0xb1,0,0,0,";
"    0xb1,0xb1,0,0,0,0,0,0,0xb1,0xb1,0xb1,0xb1,0xb1,0xb1,0xb1,0xb1,";
"    0xb1,0xb1,0xb1,0xb1,0xb1,0xb1,0xb1,0xb1,0xb1,0xb1,0xb1,0xb1,0xb1,0xb1,0xb1,0xb1,";
"    0xb1,0xb1,0,0xb1,0xb1,0xb1,0xb1,0xb1,0,0,0,0,0,0,0,0,";
"    0,0,0,0,0,0,0,0,0,0,0,0,0,0,0,0,";
"    0,0,0,0,0,0xa,0,0xa,0xa,0xa,0,0,0,0,0,0,";
"    0,0,0,0,0,0xa,0xa,0xa,0,0,0,0,0,0,0,0,";
"    0,0,0,0,0,0xa,0xa,0xa,0,0,0,0,0,0,0,0,";
"    0,0,0,0,0,0xa,0xa,0,0xa,0xa,0xa,0xa,6,0x310a,0xf20a,0xa,";
"    0xa,0xa,0xa,0xa,0xa,0xa,0xa,0xa,0xa,0xa,0xa,0xa,0xa,0xa,0xa,0xa,";
"    0xa,0xa,0xa,0xa,0xa,0xa,0xa,9,0xb2,0xb2,0xb2,0xb2,0xb2,0x12,0x814,0x815,";
"    0x813,0x816,0xb2,0xb2,0xb2,0xb2,0xb2,0xb2,2,0,0,0,2,2,2,2,";
"    2,2,3,3,0xa,0x310a,0xf20a,0,9,9,9,9,9,9,9,9,";
"    9,9,9,0xb2,0x412,0x432,0x8a0,0x8a1,0xa,0xa,0xa,0xa,0xa,0xa,0xa,0xa,";
"    0xa,0xa,0xa,0xa,0xa,0xa,0xa,0xa,9,7,0x8ab,0x8ae,0x8b0,0x8ac,0x8af,6,";
"    4,4,4,4,4,0xa,0xa,0xa,0xa,0x300a,0xf00a,0xa,0xa,0xa,0xa,0xa,";
"    2,2,2,2,2,2,2,2,2,2,3,3,0xa,0x310a,0xf20a,0,";
"    0,0,0,0,0,0,0,0,0,0,0,0,0,0,0,0,";
"    4,4,4,4,4,4,4,4,4,4,4,4,4,4,4,4,";
"    4,4,4,4,4,4,4,4,4,4,4,4,4,4,4,4,";
"    0xb1,0xb1,0xb1,0xb1,0xb1,0xb1,0xb1,0xb1,0xb1,0xb1,0xb1,0xb1,0xb1,0xb1,0xb1,0xb1,";
"    0xa,0xa,0,0xa,0xa,0xa,0xa,0,0xa,0xa,0,0,0,0,0,0,";
"    0,0,0,0,0xa,0,0xa,0xa,0xa,0,0,0,0,0,0xa,0xa,";
"    0xa,0xa,0xa,0xa,0,0xa,0,0xa,0,0xa,0,0,0,0,4,0,";
"    0,0,0,0,0,0,0,0,0,0,0xa,0xa,0,0,0,0,";
"    0x100a,0xa,0xa,0xa,0xa,0,0,0,0,0,0xa,0xa,0xa,0xa,0,0,";
"    0xa,0xa,0xa,0xa,0xa,0xa,0xa,0xa,0xa,0xa,0xa,0xa,0xa,0xa,0xa,0xa,";
"    0,0,0,0,0,0,0,0,0,0xa,0xa,0xa,0,0,0,0,";
"    0xa,0xa,0xa,0xa,0xa,0xa,0xa,0xa,0xa,0xa,0xa,0xa,0xa,0xa,0xa,0xa,";
"    0x300a,0xf00a,0x300a,0xf00a,0x300a,0xf00a,0x300a,0xf00a,0x300a,0xf00a,0x300a,0xf00a,0x300a,0xf00a,0xa,0xa,";
"    0x300a,0xf00a,0x900a,0x900a,0x900a,0x100a,0x900a,0x900a,0x100a,0x100a,0x900a,0x900a,0x900a,0x900a,0x900a,0x100a,";
"    0xa,0x100a,0x100a,0x100a,0x100a,0xa,0xa,0xa,0x700a,0x700a,0x700a,0xb00a,0xb00a,0xb00a,0xa,0xa,";
"    0xa,0x100a,3,4,0xa,0x900a,0x100a,0xa,0xa,0xa,0x100a,0x100a,0x100a,0x100a,0xa,0x900a,";
"    0x900a,0x900a,0x900a,0xa,0x900a,0xa,0x100a,0xa,0xa,0xa,0xa,0x100a,0x100a,0x100a,0x100a,0x100a,";
"    0x100a,0x100a,0x100a,0x100a,0xa,0xa,0xa,0xa,0xa,0x100a,0xa,0x100a,0x300a,0xf00a,0x100a,0x100a,";
"    0x100a,0x100a,0x100a,0x900a,0x100a,0x900a,0x100a,0x100a,0x100a,0x100a,0x100a,0x100a,0x900a,0xa,0xa,0xa,";
"    0xa,0xa,0x300a,0xf00a,0x300a,0xf00a,0xa,0xa,0xa,0xa,0xa,0xa,0xa,0xa,0xa,0x100a,";
"    0x100a,0xa,0x100a,0xa,0x300a,0xf00a,0x300a,0xf00a,0x300a,0xf00a,0x300a,0xf00a,0xa,0xa,0x300a,0xf00a,";
"    0x300a,0xf00a,0x300a,0xf00a,0x300a,0xf00a,0x300a,0xf00a,0x300a,0xf00a,0x300a,0xf00a,0x300a,0xf00a,0x300a,0xf00a,";
"    0x100a,0xa,0xa,0x300a,0xf00a,0x300a,0xf00a,0xa,0xa,0xa,0xa,0xa,0x900a,0xa,0xa,0xa,";
"    0xa,0xa,0xa,0xa,0xa,0xa,0x300a,0xf00a,0xa,0xa,0x900a,0x100a,0x900a,0x900a,0x100a,0x900a,";
"    0x100a,0x100a,0x100a,0x100a,0x300a,0xf00a,0x300a,0xf00a,0x300a,0xf00a,0x300a,0xf00a,0x900a,0xa,0xa,0xa,";
"    0xa,0xa,0x100a,0x100a,0xa,0xa,0xa,0xa,0xa,0xa,0xa,0xa,0xa,0x300a,0xf00a,0x300a,";
"    0xf00a,0x900a,0xa,0xa,0x300a,0xf00a,0xa,0xa,0xa,0xa,0x300a,0xf00a,0x300a,0xf00a,0x300a,0xf00a,";
"    0x300a,0xf00a,0x300a,0xf00a,0xa,0xa,0xa,0xa,0xa,0xa,0xa,0xa,0x310a,0xf20a,0x310a,0xf20a,";
"    0xa,0xa,0xa,0xa,0xa,0xa,0xa,0xa,0xa,0xa,0xa,0xa,0xa,0xa,0xa,0xa,";
"    0xa,0xa,0xa,0xa,0x100a,0x100a,0xa,0xa,0xa,0xa,0xa,0xa,0xa,0x310a,0xf20a,0xa,";
"    0xa,0xa,0xa,0xa,0xa,0xa,0xa,0xa,0xa,0xa,0,0,0,0,0,0,";
"    0,0,0,0,0,0,0,0,0,0,0,0,0,0,0,0,";
"    0,0,0,0,0,0,0,0xa,0xa,0xa,0xa,0xa,0xa,0xa,0xa,0xa,";
"    0xa,0xa,0xa,0xa,0xa,0xa,0xa,0xa,0xa,0xa,0xa,0xa,0xa,0,0xa,0xa,";
"    0xa,0xa,0xa,0xa,0xa,0xa,0xa,0xa,0xa,0xa,0xa,0,0,0,0,0,";
"    0,0,0,0,0,0,0,0,0,0,0,0,0,0,0,0,";
"    0xa,0xa,0xa,0xa,0xa,0xa,0xa,0xa,2,2,2,2,2,2,2,2,";
"    2,2,2,2,2,2,2,2,2,2,2,2,0,0,0,0,";
"    0xa,0xa,0xa,0xa,0xa,0xa,0xa,0xa,0xa,0xa,0xa,0xa,0,0xa,0xa,0xa,";
"    0xa,0xa,0xa,0xa,0xa,0xa,0xa,0xa,0xa,0xa,0xa,0xa,0xa,0xa,0xa,0xa,";
"    0x310a,0xf20a,0x310a,0xf20a,0x310a,0xf20a,0x310a,0xf20a,0x310a,0xf20a,0x310a,0xf20a,0x310a,0xf20a,0xa,0xa,";
"    0xa,0xa,0xa,0xa,0xa,0xa,0xa,0xa,0x100a,0xa,0xa,0x300a,0xf00a,0x310a,0xf20a,0xa,";
"    0x300a,0xf00a,0xa,0x500a,0x100a,0xd00a,0xa,0xa,0xa,0xa,0xa,0x100a,0x100a,0x300a,0xf00a,0xa,";
"    0xa,0xa,0xa,0xa,0x900a,0x300a,0xf00a,0xa,0xa,0xa,0x300a,0xf00a,0x300a,0xf00a,0x310a,0xf20a,";
"    0x310a,0xf20a,0x310a,0xf20a,0x310a,0xf20a,0x310a,0xf20a,0xa,0xa,0xa,0xa,0xa,0xa,0xa,0xa,";
"    0xa,0xa,0xa,0xa,0xa,0xa,0xa,0xa,0xa,0x100a,0xa,0x100a,0x100a,0x100a,0xa,0xa,";
"    0x300a,0xf00a,0xa,0xa,0xa,0xa,0xa,0xa,0xa,0xa,0xa,0xa,0x100a,0x900a,0x100a,0x100a,";
"    0x300a,0xf00a,0xa,0xa,0x310a,0xf20a,0xa,0xa,0xa,0xa,0xa,0x310a,0xf20a,0x310a,0xf20a,0x310a,";
"    0xf20a,0x310a,0xf20a,0x310a,0xf20a,0x710a,0x320a,0xf10a,0xb20a,0x310a,0xf20a,0x310a,0xf20a,0x310a,0xf20a,0x310a,";
"    0xf20a,0xa,0xa,0x900a,0x100a,0x100a,0x100a,0x100a,0x900a,0xa,0x100a,0x900a,0x300a,0xf00a,0x100a,0x100a,";
"    0x300a,0xf00a,0x300a,0xf00a,0x300a,0xf00a,0x300a,0xf00a,0xa,0xa,0xa,0xa,0xa,0xa,0xa,0xa,";
"    0x900a,0xa,0xa,0xa,0xa,0xa,0xa,0xa,0x300a,0xf00a,0x100a,0x100a,0x300a,0xf00a,0xa,0xa,";
"    0xa,0x100a,0xa,0xa,0xa,0xa,0x100a,0x300a,0xf00a,0x300a,0xf00a,0xa,0x300a,0xf00a,0xa,0xa,";
"    0x310a,0xf20a,0x310a,0xf20a,0x100a,0xa,0xa,0xa,0xa,0xa,0x100a,0x900a,0x900a,0x900a,0x100a,0xa,";
"    0xa,0xa,0xa,0xa,0x300a,0xf00a,0x900a,0xa,0xa,0xa,0xa,0x100a,0xa,0xa,0xa,0x300a,";
"    0xf00a,0x300a,0xf00a,0x100a,0xa,0x100a,0xa,0xa,0xa,0xa,0xa,0xa,0xa,0xa,0xa,0xa,";
"    0xa,0xa,0x100a,0x100a,0x100a,0x100a,0x100a,0x100a,0x100a,0x100a,0x100a,0x100a,0x100a,0x100a,0x100a,0x100a,";
"    0x100a,0x100a,0x100a,0x100a,0x100a,0xa,0x100a,0x100a,0x100a,0x100a,0xa,0xa,0x100a,0xa,0x100a,0xa,";
"    0xa,0x100a,0xa,0x300a,0xf00a,0x300a,0xf00a,0xa,0xa,0xa,0xa,0xa,0x300a,0xf00a,0xa,0xa,";
"    0xa,0xa,0xa,0xa,0x300a,0xf00a,0x100a,0xa,0xa,0xa,0xa,0xa,0xa,0xa,0xa,0xa,";
"    0xa,0xa,0xa,0xa,0xa,0xa,0xa,0xa,0xa,0xa,0xa,0xa,0xa,0xa,0xa,0x100a,";
"    0x100a,0xa,0xa,0xa,0xa,0xa,0xa,0xa,0x300a,0xf00a,0xa,0xa,0xa,0xa,0x100a,0x100a,";
"    0x100a,0x100a,0xa,0x100a,0x100a,0xa,0xa,0x100a,0x100a,0xa,0xa,0xa,0xa,0x300a,0xf00a,0x300a,";
"    0xf00a,0x300a,0xf00a,0x300a,0xf00a,0x300a,0xf00a,0x300a,0xf00a,0x300a,0xf00a,0x300a,0xf00a,0x300a,0xf00a,0x300a,";
"    0xf00a,0x300a,0xf00a,0x300a,0xf00a,0x300a,0xf00a,0x300a,0xf00a,0x300a,0xf00a,0x300a,0xf00a,0x300a,0xf00a,0x300a,";
"    0xf00a,0x300a,0xf00a,0x100a,0xa,0xa,0x300a,0xf00a,0x300a,0xf00a,0x300a,0xf00a,0x300a,0xf00a,0xa,0x300a,";
"    0xf00a,0x300a,0xf00a,0x300a,0xf00a,0x300a,0xf00a,0x300a,0xf00a,0x300a,0xf00a,0x300a,0xf00a,0x300a,0xf00a,0x300a,";
"    0xf00a,0x300a,0xf00a,0x300a,0xf00a,0x300a,0xf00a,0xa,0xa,0xa,0xa,0xa,0x100a,0xa,0x900a,0xa,";
"    0xa,0xa,0xa,0xa,0xa,0xa,0xa,0xa,0xa,0xa,0xa,0xa,0xa,0xa,0xa,0xa,";
"    0xa,0xa,0xa,0xa,0,0,0xa,0xa,0xa,0xa,0xa,0xa,0xa,0xa,0xa,0xa,";
"    0xa,0xa,0xa,0xa,0xa,0xa,0xa,0xa,0xa,0xa,0xa,0xa,0xa,0xa,0,0xa,";
"    0xa,0xa,0xa,0xa,0xa,0xa,0xa,0xa,0xa,0xa,0xa,0xa,0xa,0xa,0xa,0xa,";
"    0xa,0xa,0xa,0xa,0xa,0xa,0xa,0xa,0xa,0xa,0xa,0xa,0xa,0xa,0x900a,0xa,";
"    0,0,0,0,0,0xa,0xa,0xa,0xa,0xa,0xa,0,0,0,0,0xb1,";
"    0xb1,0xb1,0,0,0,0,0,0,0,0xa,0xa,0xa,0xa,0xa,0xa,0xa,";
"    0,0,0,0,0,0,0,0,0,0,0,0,0,0,0,0,";
"    0,0,0,0,0,0,0,0,0,0,0,0,0,0,0,0xb1,";
"    0xa,0xa,0x300a,0xf00a,0x300a,0xf00a,0xa,0xa,0xa,0x300a,0xf00a,0xa,0x300a,0xf00a,0xa,0xa,";
"    0xa,0xa,0xa,0xa,0xa,0xa,0xa,0xa,0xa,0xa,0xa,0xa,0x300a,0xf00a,0xa,0xa,";
"    0x300a,0xf00a,0x310a,0xf20a,0x310a,0xf20a,0x310a,0xf20a,0x310a,0xf20a,0xa,0xa,0xa,0xa,0xa,0xa,";
"    0xa,0xa,0xa,0xa,0xa,0xa,0xa,0xa,0xa,0xa,0xa,0xa,0xa,0xa,0xa,0xa,";
"    0xa,0xa,0xa,0,0,0,0,0,0,0,0,0,0,0,0,0,";
"    0xa,0xa,0xa,0xa,0xa,0xa,0xa,0xa,0xa,0xa,0xa,0xa,0xa,0xa,0xa,0xa,";
"    0xa,0xa,0xa,0xa,0xa,0xa,0xa,0xa,0xa,0xa,0,0xa,0xa,0xa,0xa,0xa,";
"    0xa,0xa,0xa,0xa,0xa,0xa,0xa,0xa,0xa,0xa,0xa,0xa,0xa,0xa,0xa,0xa,";
"    0xa,0xa,0,0,0,0,0,0,0,0,0,0,0,0,0,0,";
"    0,0,0,0,0xa,0xa,0xa,0xa,0xa,0xa,0xa,0xa,0xa,0xa,0xa,0xa,";
"    0,0,0,0,0xa,0,0,0,0,0,0,0,0,0,0xb1,0xb1,";
"    0xb1,0xb1,0,0,0xa,0,0,0,0,0,0xa,0xa,0,0,0,0,";
"    0,0xa,0xa,0xa,9,0xa,0xa,0xa,0xa,0,0,0,0x310a,0xf20a,0x310a,0xf20a,";
"    0x310a,0xf20a,0x310a,0xf20a,0x310a,0xf20a,0xa,0xa,0x310a,0xf20a,0x310a,0xf20a,0x310a,0xf20a,0x310a,0xf20a,";
"    0xa,0xa,0xa,0xa,0,0,0,0,0,0,0,0,0,0,0,0,";
"    0,0,0,0,0,0,0,0,0,0,0,0,0,0xb1,0xb1,0xa,";
"    0xa,0,0,0,0,0,0,0,0,0,0,0,0,0,0,0,";
"    0,0,0,0,0xa,0xa,0xa,0xa,0xa,0xa,0xa,0xa,0xa,0xa,0xa,0xa,";
"    0xa,0xa,0xa,0xa,0,0,0,0,0,0,0,0,0,0,0,0,";
"    0,0,0,0,0,0,0,0,0,0,0,0,0,0,0,0,";
"    0xa,0xa,0xa,0,0,0,0,0,0,0,0,0,0,0,0,0,";
"    0,0,0,0,0,0xa,0xa,0xa,0xa,0xa,0xa,0xa,0xa,0xa,0xa,0xa,";
"    0xa,0xa,0xa,0xa,0,0,0,0,0,0,0,0,0,0,0,0,";
"    0xa,0xa,0xa,0xa,0,0,0,0,0,0,0,0,0,0,0,0,";
"    0,0,0,0,0,0,0,0,0,0,0,0xa,0xa,0xa,0xa,0,";
"    0,0,0,0,0,0,0,0,0,0,0,0,0,0xa,0xa,0xa,";
"    0,0,0,0,0,0,0,0,0,0,0,0,0,0,0,0,";
"    0,0,0,0xb1,0xb1,0xb1,0xb1,0xa,0xb1,0xb1,0xb1,0xb1,0xb1,0xb1,0xb1,0xb1,";
"    0xb1,0xb1,0xa,0xa,0,0,0,0,0,0,0,0,0xa,0,0,0,";
"    0,0,0,0,0,0,0,0,0,0,0,0,0,0,0,0,";
"    0,0,0,0,0,0,0xb1,0,0,0,0xb1,0,0,0,0,0xb1,";
"    0,0,0,0,0,0,0,0,0,0,0,0,0,0,0,0,";
"    0,0,0,0,0,0xb1,0xb1,0,0xa,0xa,0xa,0xa,0xb1,0,0,0,";
"    0,0,0,0,0,0,0,0,4,4,0,0,0,0,0,0,";
"    0x40,0x40,0x40,0x40,0x40,0x40,0x40,0x40,0x40,0x40,0x40,0x40,0x40,0x40,0x40,0x40,";
"    0x40,0x40,0x60,0,0xa,0xa,0xa,0xa,0,0,0,0,0,0,0,0,";
"    0xb1,0xb1,0xb1,0xb1,0xb1,0xb1,0xb1,0xb1,0xb1,0xb1,0xb1,0xb1,0xb1,0xb1,0xb1,0xb1,";
"    0xb1,0xb1,0,0,0,0,0,0,0,0,0,0,0,0,0,0xb1,";
"    0,0,0,0,0,0,0xb1,0xb1,0xb1,0xb1,0xb1,0xb1,0xb1,0xb1,0,0,";
"    0,0,0,0,0,0,0,0,0,0,0,0,0,0,0,0,";
"    0,0,0,0xb1,0xb1,0xb1,0xb1,0xb1,0xb1,0xb1,0xb1,0xb1,0xb1,0xb1,0,0,";
"    0,0,0,0,0,0,0,0,0,0,0,0,0,0,0,0,";
"    0,0,0,0xb1,0,0,0xb1,0xb1,0xb1,0xb1,0,0,0xb1,0xb1,0,0,";
"    0,0,0,0,0,0,0,0,0,0xb1,0xb1,0xb1,0xb1,0xb1,0xb1,0,";
"    0,0xb1,0xb1,0,0,0xb1,0xb1,0,0,0,0,0,0,0,0,0,";
"    0,0,0,0xb1,0,0,0,0,0,0,0,0,0xb1,0,0,0,";
"    0,0,0,0,0,0,0,0,0,0,0,0,0,0,0,0,";
"    0xb1,0,0xb1,0xb1,0xb1,0,0,0xb1,0xb1,0,0,0,0,0,0xb1,0xb1,";
"    0,0,0,0,0,0,0,0,0,0,0,0,0xb1,0xb1,0,0,";
"    0,0,0,0,0,0,0xb1,0,0,0,0,0,0,0,0,0,";
"    0,0,0xa,0xa,0,0,0,0,0,0,0,0,0,0,0,0,";
"    0,0,0,0,0,0,0,0,0,0xb1,0,0,0xb1,0,0,0,";
"    0,0xb1,0,0,0,0,0,0,0,0,0,0,0,0,0,0,";
"    0,0,0,0,1,1,1,1,1,1,1,1,1,3,1,1,";
"    1,1,1,1,1,1,1,1,1,1,1,1,1,1,1,1,";
"    1,1,1,1,0xd,0xd,0xd,0xd,0xd,0xd,0xd,0xd,0xd,0xd,0xd,0xd,";
"    0xd,0xd,0xd,0xd,0,0,0,0,0,0,0,0,0,0,0,0,";
"    0,0,0,0,0,0,0,0,0,0,0,0,0,0,0,0,";
"    0,1,0xb1,1,0xd,0xd,0xd,0xd,0xd,0xd,0xd,0xd,0xd,0xd,0xd,0xd,";
"    0xd,0xd,0xd,0xd,0xd,0xd,0xd,0xd,0xd,0xd,0xd,0xd,0xd,0xd,0xd,0xd,";
"    0xd,0xd,0xa,0xa,0xd,0xd,0xd,0xd,0xd,0xd,0xd,0xd,0xd,0xd,0xd,0xd,";
"    0xd,0xd,0xd,0xd,0x12,0x12,0x12,0x12,0x12,0x12,0x12,0x12,0x12,0x12,0x12,0x12,";
"    0x12,0x12,0x12,0x12,0xd,0xd,0xd,0xd,0xd,0xd,0xd,0xd,0xd,0xd,0xd,0xd,";
"    0xd,0xa,0xd,0xd,0xb1,0xb1,0xb1,0xb1,0xb1,0xb1,0xb1,0xb1,0xb1,0xb1,0xb1,0xb1,";
"    0xb1,0xb1,0xb1,0xb1,0xa,0xa,0xa,0xa,0xa,0xa,0xa,0xa,0xa,0xa,0,0,";
"    0,0,0,0,0xb1,0xb1,0xb1,0xb1,0xb1,0xb1,0xb1,0xb1,0xb1,0xb1,0xb1,0xb1,";
"    0xb1,0xb1,0xb1,0xb1,0xa,0xa,0xa,0xa,0xa,0xa,0xa,0xa,0xa,0xa,0xa,0xa,";
"    0xa,0xa,0xa,0xa,6,0xa,6,0,0xa,6,0xa,0xa,0xa,0x310a,0xf20a,0x310a,";
"    0xf20a,0x310a,0xf20a,4,0xa,0xa,3,3,0x300a,0xf00a,0xa,0,0xa,4,4,0xa,";
"    0,0,0,0,0xd,0xd,0xd,0xd,0xd,0xd,0xd,0xd,0xd,0xd,0xd,0xd,";
"    0xd,0xd,0xd,0xd,0xd,0xd,0xd,0xd,0xd,0xd,0xd,0xd,0xd,0xd,0xd,0xd,";
"    0xd,0xd,0xd,0xb2,0,0xa,0xa,4,4,4,0xa,0xa,0x310a,0xf20a,0xa,3,";
"    6,3,6,6,2,2,2,2,2,2,2,2,2,2,6,0xa,";
"    0x500a,0xa,0xd00a,0xa,0xa,0,0,0,0,0,0,0,0,0,0,0,";
"    0,0,0,0,0,0,0,0,0,0,0,0,0,0,0,0x510a,";
"    0xa,0xd20a,0xa,0x310a,0xf20a,0xa,0x310a,0xf20a,0xa,0xa,0,0,0,0,0,0,";
"    0,0,0,0,0,0,0,0,0,0,0,0,0,0,0,0,";
"    0,0,0,0,4,4,0xa,0xa,0xa,4,4,0,0xa,0xa,0xa,0xa,";
"    0xa,0xa,0xa,0,0x12,0x12,0x12,0x12,0x12,0x12,0x12,0x12,0x12,0xaa,0xaa,0xaa,";
"    0xa,0xa,0x12,0x12,0,0xa,0,0,0,0,0,0,0,0,0,0,";
"    0,0,0,0,0,0,0,0,0,0,0,0,0,0,0,0,";
"    0,0,0,0,0xa,0xa,0xa,0xa,0xa,0xa,0xa,0xa,0xa,0xa,0xa,0xa,";
"    0xa,0,0,0,0xa,0xa,0xa,0xa,0xa,0xa,0xa,0xa,0xa,0xa,0xa,0xa,";
"    0xa,0,0,0,0xb1,2,2,2,2,2,2,2,2,2,2,2,";
"    2,2,2,2,2,2,2,2,2,2,2,2,2,2,2,2,";
"    0,0,0,0,0,0,0,0,0,0,0,0,0,0,0,0,";
"    0,0,0,0,0,0,0xb1,0xb1,0xb1,0xb1,0xb1,0,0,0,0,0,";
"    1,1,1,1,1,1,1,1,1,1,1,1,1,1,1,1,";
"    1,1,1,1,1,1,1,1,1,1,1,1,1,1,1,0xa,";
"    1,0xb1,0xb1,0xb1,1,0xb1,0xb1,1,1,1,1,1,0xb1,0xb1,0xb1,0xb1,";
"    1,1,1,1,1,1,1,1,1,1,1,1,1,1,1,1,";
"    1,1,1,1,1,1,1,1,0xb1,0xb1,0xb1,1,1,1,1,0xb1,";
"    0x41,0x81,1,1,0x81,0xb1,0xb1,1,1,1,1,0x41,0x41,0x41,0x41,0x81,";
"    1,1,1,1,1,1,1,1,1,1,1,1,1,1,1,1,";
"    0x41,0x41,0x41,0x41,0x41,0x81,1,0x81,1,0x81,0x81,1,1,0x61,0x81,0x81,";
"    0x81,0x81,0x81,0x41,0x41,0x41,0x41,0x61,0x41,0x41,0x41,0x41,0x41,0x81,0x41,0x41,";
"    1,1,1,1,1,1,1,1,1,1,1,1,1,1,1,1,";
"    1,1,1,1,1,1,1,1,1,0xa,0xa,0xa,0xa,0xa,0xa,0xa,";
"    0x41,0x81,0x41,0x81,0x81,0x81,0x41,0x41,0x41,0x81,0x41,0x41,0x81,0x41,0x81,0x81,";
"    0x41,0x81,1,1,1,1,1,1,1,1,1,1,1,1,1,1,";
"    1,0x81,0x81,0x81,0x81,0x41,0x41,1,1,1,1,1,1,1,1,1,";
"    1,1,1,1,1,1,1,1,0x4d,0x4d,0x8d,0x4d,0xb1,0xb1,0xb1,0xb1,";
"    0xd,0xd,0xd,0xd,0xd,0xd,0xd,0xd,5,5,5,5,5,5,5,5,";
"    5,5,0xd,0xd,0xd,0xd,0xd,0xd,0x6d,0x4d,0x4d,0x4d,0x4d,0x4d,0x4d,0x4d,";
"    0x4d,0x4d,0x4d,0x4d,0x4d,0x4d,0x4d,0x4d,0x4d,0x4d,0x4d,0x4d,0x4d,0x4d,0x4d,0x4d,";
"    0x4d,0x4d,0x4d,0x4d,0x4d,0x4d,0x4d,0x4d,5,5,5,5,5,5,5,5,";
"    5,5,5,5,5,5,5,5,5,5,5,5,5,5,5,5,";
"    5,5,5,5,5,5,5,1,1,1,1,1,1,1,1,1,";
"    1,1,1,0xb1,0xb1,1,1,1,1,1,1,1,1,1,1,1,";
"    1,1,1,1,1,1,1,1,0x4d,0x4d,0x4d,0x8d,0x4d,0x4d,0x4d,0x4d,";
"    0x4d,0x4d,0x4d,0x4d,0x4d,0x4d,0x4d,0x4d,0x4d,0xd,0xb1,0xb1,0xb1,0xb1,0xb1,0xb1,";
"    0xb1,0xb1,0xb1,0xb1,0xb1,0x4d,0x4d,0x4d,0x8d,0xd,0xd,0xd,0xd,0xd,0xd,0xd,";
"    0xd,0xd,0xd,0xd,0xd,0xd,0xd,0xd,0xd,0xd,0xd,0xd,1,1,1,1,";
"    1,1,1,1,1,1,1,1,1,1,1,1,0x41,1,0x41,0x41,";
"    0x81,0x81,0x81,1,0x41,0x81,0x81,0x41,0x41,0x81,0x41,0x41,1,0x41,0x81,0x81,";
"    0x41,1,1,1,1,0x81,0x41,0x61,1,1,1,1,1,1,1,1,";
"    1,1,1,1,1,1,1,1,1,1,1,1,0,0,0,0,";
"    0,0,0,0,0,0,0,0,0,0,0,0,0,0,0,0,";
"    0,0,0,0,0xb1,0xb1,0xb1,0xb1,0xb1,0xb1,0xb1,0xb1,0xb1,0xb1,0xb1,0,";
"    0,0,0,0,0,0,0,0,0,0,0xa,0xa,0xa,0xa,0xa,0xa,";
"    0xa,0xa,0xa,0xa,0xa,0xa,0xa,0xa,0xa,0xa,0,0,0,0,0,0,";
"    0,0,0,0,0,0,0,0,0,0,0,0,0,0,0,0,";
"    0,0,0,0xb1,0xb1,0xb1,0xb1,0,0,0xb1,0xb1,0,0,0,0,0,";
"    0,0,0,0xb1,0xb1,0xb1,0xb1,0xb1,0,0xb1,0xb1,0xb1,0xb1,0xb1,0xb1,0xb1,";
"    0xb1,0,0,0,0,0,0,0,0,0,0,0,0,0,0,0,";
"    0,0,0,0,0,0,0,0xb1,0,0,0,0,0,0,0,0,";
"    0,0,0,0,0,0,0,0,0,0,0,0,0,0,0xb1,0xb1,";
"    0xb1,0xb1,0xb1,0xb1,0xb1,0xb1,0xb1,0,0,0,0,0,0,0,0,0,";
"    0,0xb1,0xb1,0xb1,0xb1,0,0,0xb1,0,0,0,0,0,0,0,0,";
"    0,0,0,0,0,0,0,0,0,0,0,0xb1,0xb1,0xb1,0,0,";
"    0xb1,0,0xb1,0xb1,0,0,0,0,0,0,0xb1,0,0,0,0,0xb1,";
"    0xb1,0xb1,0xb1,0xb1,0xb1,0xb1,0xb1,0,0,0,0,0,0,0,0,0,";
"    0,0,0,0,0,0,0,0,0,0,0,0,0,0,0xb1,0xb1,";
"    0xb1,0xb1,0xb1,0xb1,0xb1,0,0,0,0xb1,0xb1,0xb1,0xb1,0xb1,0,0,0,";
"    0,0,0,0,0,0,0,0,0,0,0xb1,0xb1,0xb1,0,0xb1,0,";
"    0,0,0,0,0,0,0,0,0,0,0,0,0,0,0,0,";
"    0,0,0,0,0,0,0xb1,0,0,0,0,0,0,0,0,0,";
"    0,0,0,0,0,0,0,0,0,0,0,0xb1,0xb1,0xb1,0xb1,0xb1,";
"    0xb1,0,0xb1,0,0,0,0,0xb1,0xb1,0,0xb1,0xb1,0,0,0,0,";
"    0,0,0,0,0,0,0,0,0,0,0,0,0,0,0,0,";
"    0,0,0,0,0,0,0,0,0,0,0xb1,0xb1,0xb1,0xb1,0,0,";
"    0,0,0,0,0xb1,0xb1,0,0xb1,0xb1,0,0,0,0,0,0,0,";
"    0,0,0,0,0,0,0,0,0,0,0,0,0,0,0,0,";
"    0,0,0,0,0xb1,0xb1,0,0,0,0,0,0,0,0,0,0,";
"    0,0,0,0,0,0,0,0,0,0,0,0xb1,0xb1,0xb1,0xb1,0xb1,";
"    0xb1,0xb1,0xb1,0,0,0xb1,0,0xb1,0xa,0xa,0xa,0xa,0xa,0xa,0xa,0xa,";
"    0xa,0xa,0xa,0xa,0xa,0,0,0,0,0,0,0,0,0,0,0,";
"    0,0,0,0,0,0,0,0,0,0,0,0xb1,0,0xb1,0,0,";
"    0xb1,0xb1,0xb1,0xb1,0xb1,0xb1,0,0xb1,0,0,0,0,0,0,0,0,";
"    0,0,0xb1,0xb1,0xb1,0xb1,0,0xb1,0xb1,0xb1,0xb1,0xb1,0,0,0,0,";
"    0,0,0,0,0,0,0,0,0,0,0,0,0,0,0,0,";
"    0,0,0,0xb1,0xb1,0xb1,0xb1,0xb1,0xb1,0xb1,0xb1,0xb1,0,0xb1,0xb1,0,";
"    0,0,0,0,0,0,0,0,0,0,0,0,0,0,0,0,";
"    0,0,0,0,0,0,0,0,0,0,0,0xb1,0xb1,0,0xb1,0,";
"    0,0,0,0xb1,0,0,0,0,0,0,0,0,0,0,0,0,";
"    0,0,0,0,0,0,0,0,0,0,0,0,0,0,0,0,";
"    0xb1,0xb1,0xb1,0xb1,0,0,0xb1,0xb1,0,0,0,0,0,0xb1,0xb1,0xb1,";
"    0xb1,0xb1,0xb1,0xa0,0xa0,0xb1,0xb1,0,0,0,0,0,0,0,0,0,";
"    0,0,0,0,0,0,0,0,0,0,0,0,0,0,0,0xb1,";
"    0xb1,0xb1,0xb1,0xb1,0xb1,0,0,0xb1,0xb1,0xb1,0xb1,0,0,0,0,0,";
"    0,0,0,0xb1,0,0,0,0,0,0,0,0,0,0xb1,0xb1,0xb1,";
"    0xb1,0xb1,0xb1,0,0,0xb1,0xb1,0xb1,0,0,0,0,0,0,0,0,";
"    0,0,0xb1,0xb1,0xb1,0xb1,0xb1,0xb1,0xb1,0xb1,0xb1,0xb1,0xb1,0xb1,0xb1,0,";
"    0xb1,0xb1,0,0,0,0,0,0,0,0,0,0,0,0,0,0,";
"    0,0,0,0,0xb1,0xb1,0xb1,0xb1,0xb1,0xb1,0xb1,0,0xb1,0xb1,0xb1,0xb1,";
"    0xb1,0xb1,0,0xa0,0xb1,0xb1,0xb1,0xb1,0xb1,0xb1,0xb1,0xb1,0,0,0xb1,0xb1,";
"    0xb1,0xb1,0xb1,0xb1,0xb1,0,0xb1,0xb1,0,0xb1,0xb1,0,0,0,0,0,";
"    0,0,0,0,0,0,0,0,0,0,0,0,0,0,0xb1,0xb1,";
"    0xb1,0xb1,0xb1,0xb1,0xb1,0xb1,0xb1,0xb1,0xb1,0xb1,0xb1,0xb1,0,0,0,0,";
"    0,0,0,0,0,0,0,0,0,0,0,0,0,0xb1,0xb1,0xb1,";
"    0xb1,0xb1,0xb1,0,0,0,0xb1,0,0xb1,0xb1,0,0xb1,0xb1,0xb1,0xb1,0xb1,";
"    0xb1,0xb1,0,0xb1,0,0,0,0,0,0,0,0,0,0,0,0,";
"    0,0,0,0,0,0,0,0,0,0,0,0,0xb1,0xb1,0,0,";
"    0,0xb1,0,0xb1,0,0,0,0,0,0,0,0,4,0xa,0xa,0xa,";
"    0xa,0xa,0xa,0xa,0xa,0xa,0xa,0xa,0xa,0xa,0xa,0xa,0xa,0xa,0,0,";
"    0,0,0,0,0,0,0,0,0,0,0,0,0,0,0,0,";
"    0,0,0,0,0,0xa,0xa,0xa,0xa,0xa,0xa,0xa,0xa,4,4,4,";
"    0,0,0,0,0,0,0,0,0,0,0,0,0,0,0,0,";
"    0xa0,0xa0,0xa0,0xa0,0xa0,0xa0,0xa0,0xa0,0xa0,0,0,0,0,0,0,0,";
"    0,0,0,0,0,0,0,0,0,0,0,0,0xb1,0xb1,0xb1,0xb1,";
"    0xb1,0,0,0,0,0,0,0,0,0,0,0,0,0,0,0,";
"    0,0,0,0,0xb1,0xb1,0xb1,0xb1,0xb1,0xb1,0xb1,0,0,0,0,0,";
"    0,0,0,0,0,0,0,0,0,0,0,0xb1,0xb1,0xb1,0xb1,0,";
"    0,0,0,0,0,0,0,0,0,0,0,0,0,0,0xa,0,";
"    0xb1,0,0,0,0,0,0,0,0,0,0,0,0,0,0,0,";
"    0,0,0,0,0,0,0,0,0,0,0,0,0xb2,0xb2,0xb2,0xb2,";
"    0,0,0,0,0,0,0,0,0,0,0,0,0,0,0,0,";
"    0,0,0,0,0,0,0,0,0,0,0,0,0,0,0,0xb1,";
"    0xb1,0xb1,0,0,0,0,0,0,0,0,0,0xb2,0xb2,0xb2,0xb2,0xb2,";
"    0xb2,0xb2,0xb2,0xb1,0xb1,0xb1,0xb1,0xb1,0xb1,0xb1,0xb1,0,0,0xb1,0xb1,0xb1,";
"    0xb1,0xb1,0xb1,0xb1,0,0,0,0,0,0,0,0,0,0,0,0,";
"    0,0,0,0,0,0,0,0,0,0,0xb1,0xb1,0xb1,0xb1,0,0,";
"    0,0,0,0,0,0,0,0,0,0,0,0,0,0,0,0,";
"    0xa,0xa,0xb1,0xb1,0xb1,0xa,0,0,0,0,0,0,0,0,0,0,";
"    0,0,0,0,0,0,0,0,0,0,0,0,0,0,0,0,";
"    0,0,0,0x100a,0,0,0,0,0,0,0,0,0,0,0,0,";
"    0,0,0,0,0,0,0,0,0,0x100a,0,0,0,0,0,0,";
"    0,0,0,0,0,0,0,0,0,0,0,0,0,0,0,0,";
"    0,0,0,0x100a,0,0,0,0,0,0,0,0,0,0,2,2,";
"    2,2,2,2,2,2,2,2,2,2,2,2,2,2,2,2,";
"    2,2,2,2,2,2,2,2,2,2,2,2,2,2,2,2,";
"    0xb1,0xb1,0xb1,0xb1,0xb1,0xb1,0xb1,0xb1,0xb1,0xb1,0xb1,0xb1,0xb1,0xb1,0xb1,0xb1,";
"    0xb1,0xb1,0xb1,0xb1,0xb1,0xb1,0xb1,0,0,0,0,0xb1,0xb1,0xb1,0xb1,0xb1,";
"    0xb1,0xb1,0xb1,0xb1,0xb1,0xb1,0xb1,0xb1,0xb1,0,0,0,0,0,0,0,";
"    0,0xb1,0,0,0,0,0,0,0,0,0,0,0xb1,0,0,0,";
"    0,0,0,0,0,0,0,0,0,0,0,0,0,0,0,0,";
"    0,0,0,0xb1,0xb1,0xb1,0xb1,0xb1,0,0xb1,0xb1,0xb1,0xb1,0xb1,0xb1,0xb1,";
"    0xb1,0xb1,0xb1,0xb1,0xb1,0xb1,0xb1,0xb1,0,0,0,0,0,0,0,0,";
"    0,0,0,0,0,0,0,0,0xb1,0xb1,0xb1,0xb1,0xb1,0xb1,0xb1,0,";
"    0xb1,0xb1,0xb1,0xb1,0xb1,0xb1,0xb1,0xb1,0xb1,0xb1,0xb1,0xb1,0xb1,0xb1,0xb1,0xb1,";
"    0xb1,0,0,0xb1,0xb1,0xb1,0xb1,0xb1,0xb1,0xb1,0,0xb1,0xb1,0,0xb1,0xb1,";
"    0xb1,0xb1,0xb1,0,0,0,0,0,0,0,0,0,0,0,0,0,";
"    0,0,0,0,0,0,0,0,0xb1,0xb1,0xb1,0xb1,0,0,0,0,";
"    0,0,0,0,0,0,0,0,0,0,0,4,1,1,1,1,";
"    1,1,1,1,1,1,1,1,1,1,1,1,0xb1,0xb1,0xb1,0xb1,";
"    0xb1,0xb1,0xb1,1,1,1,1,1,1,1,1,1,0x41,0x41,0x41,0x41,";
"    0x41,0x41,0x41,0x41,0x41,0x41,0x41,0x41,0x41,0x41,0x41,0x41,0x41,0x41,0x41,0x41,";
"    0x41,0x41,0x41,0x41,0x41,0x41,0x41,0x41,0x41,0x41,0x41,0x41,0xb1,0xb1,0xb1,0xb1,";
"    0xb1,0xb1,0xb1,0xa1,1,1,1,1,1,1,1,1,1,1,1,1,";
"    1,1,1,1,1,1,1,1,0xd,0xd,0xd,0xd,0xd,0xd,0xd,0xd,";
"    0xd,0xd,0xd,0xd,0xd,0xd,0xd,0xd,0xa,0xa,0xd,0xd,0xd,0xd,0xd,0xd,";
"    0xd,0xd,0xd,0xd,0xd,0xd,0xd,0xd,0xa,0xa,0xa,0xa,0xa,0xa,0xa,0xa,";
"    0xa,0xa,0xa,0xa,0,0,0,0,0xa,0xa,0xa,0xa,0xa,0xa,0xa,0xa,";
"    0xa,0xa,0xa,0xa,0xa,0xa,0xa,0xa,0xa,0xa,0xa,0,0,0xa,0xa,0xa,";
"    0xa,0xa,0xa,0xa,0xa,0xa,0xa,0xa,0xa,0xa,0xa,0xa,0,0xa,0xa,0xa,";
"    0xa,0xa,0xa,0xa,0xa,0xa,0xa,0xa,0xa,0xa,0xa,0xa,2,2,2,2,";
"    2,2,2,2,2,2,2,0xa,0xa,0xa,0xa,0xa,0,0,0,0,";
"    0,0,0,0,0,0,0,0,0,0,0,0,0,0,0xa,0xa,";
"    0xa,0xa,0xa,0xa,0,0,0,0,0,0,0,0,0,0,0,0,";
"    0,0,0,0,0,0xa,0,0,0,0,0,0,0,0,0,0,";
"    0,0,0,0,0,0,0,0,0xa,0xa,0xa,0xa,0xa,0xa,0xa,0xa,";
"    0xa,0xa,0xa,0xa,0xa,0xa,0xa,0xa,0xa,0xa,0xa,0xa,0xa,0xa,0xa,0xa,";
"    0xa,0,0,0,0,0,0,0,0xa,0xa,0xa,0xa,0xa,0xa,0xa,0xa,";
"    0,0,0,0,0,0,0,0,0xa,0xa,0xa,0xa,0xa,0xa,0xa,0xa,";
"    0xa,0xa,0,0,0,0,0,0,0xa,0xa,0xa,0xa,0xa,0xa,0xa,0xa,";
"    0,0,0,0,0,0,0,0,0xa,0xa,0xa,0xa,0xa,0xa,0xa,0xa,";
"    0xa,0xa,0xa,0xa,0xa,0xa,0xa,0xa,0xa,0xa,0,0,0xa,0xa,0,0,";
"    0,0,0,0,0,0,0,0,0,0,0,0,0xa,0xa,0xa,0xa,";
"    0xa,0xa,0xa,0xa,0xa,0xa,0xa,0xa,0xa,0xa,0xa,0xa,0xa,0xa,0xa,0xa,";
"    0xa,0xa,0xa,0xa,0xa,0,0xa,0xa,0xa,0xa,0xa,0xa,0xa,0xa,0xa,0xa,";
"    0xa,0xa,0xa,0xa,0xa,0xa,0,0,0xa,0xa,0xa,0xa,0xa,0,0,0,";
"    0xa,0xa,0xa,0,0,0,0,0,0xa,0xa,0xa,0xa,0xa,0xa,0xa,0,";
"    0,0,0,0,0,0,0,0,0xa,0xa,0xa,0xa,0xa,0xa,0xa,0xa,";
"    0xa,0xa,0xa,0xa,0xa,0xa,0xa,0xa,0xa,0,0,0,0,0,0,0,";
"    0xa,0xa,0xa,0xa,0xa,0xa,0xa,0,0,0,0,0,0,0,0,0,";
"    0,0,0,0,0xa,0xa,0xa,0xa,0xa,0xa,0xa,0,0,0,0,0,";
"    0,0,0,0,0xa,0xa,0xa,0xa,0xa,0xa,0xa,0xa,0xa,0xa,0xa,0xa,";
"    0xa,0xa,0xa,0xa,0xa,0xa,0xa,0,0xa,0xa,0xa,0xa,0xa,0xa,0xa,0xa,";
"    0xa,0xa,0xa,0xa,0,0,0,0,0,0,0,0,0,0,0,0,";
"    0,0,0,0,2,2,2,2,2,2,2,2,2,2,0,0,";
"    0,0,0,0,0,0,0,0,0,0,0,0,0,0,0,0,";
"    0,0,0,0,0,0,0,0,0,0,0,0,0,0,0x12,0x12,";
"    0xb2,0xb2,0xb2,0xb2,0xb2,0xb2,0xb2,0xb2,0xb2,0xb2,0xb2,0xb2,0xb2,0xb2,0xb2,0xb2,";
"    0xb2,0xb2,0xb2,0xb2,0xb2,0xb2,0xb2,0xb2,0xb2,0xb2,0xb2,0xb2,0xb2,0xb2,0xb2,0xb2,";
"    0x12,0xb2,0x12,0x12,0x12,0x12,0x12,0x12,0x12,0x12,0x12,0x12,0x12,0x12,0x12,0x12,";
"    0x12,0x12,0x12,0x12,0x12,0x12,0x12,0x12,0x12,0x12,0x12,0x12,0x12,0x12,0x12,0x12,";
"    0x12,0x12,0x12,0x12,0xb1,0xb1,0xb1,0xb1,0xb1,0xb1,0xb1,0xb1,0xb1,0xb1,0xb1,0xb1,";
"    0xb1,0xb1,0xb1,0xb1,0x12,0x12,0x12,0x12,0x12,0x12,0x12,0x12,0x12,0x12,0x12,0x12,";
"    0x12,0x12,0x12,0x12,0,0,0,0";
"]";
"";
"ubidi_props_mirrors = [";
"    0x2000ab,0xbb,0x4202215,0x4e0221f,0x3e02220,0x3a02221,0x3c02222,0x4c02224,0x2202243,0x1402245,0x120224c,0x4002298,0x44022a6,0x48022a8,0x46022a9,0x4a022ab,";
"    0x38022b8,0x10022cd,0x2e022f2,0x30022f3,0x32022f4,0x34022f6,0x36022f7,0x24022fa,0x26022fb,0x28022fc,0x2a022fd,0x2c022fe,0x20027dc,0xa0299b,0xc029a0,0x8029a3,";
"    0x16029b8,0x4029f5,0x1802ade,0x1c02ae3,0x1a02ae4,0x1e02ae5,0xe02aee,0x602bfe";
"]";
"";
"ubidi_props_jgArray = [";
"    0x2d,0,3,3,0x2c,3,0x2d,3,4,0x2a,4,4,0xd,0xd,0xd,6,";
"    6,0x1f,0x1f,0x23,0x23,0x21,0x21,0x28,0x28,1,1,0xb,0xb,0x37,0x37,0x37,";
"    0,9,0x1d,0x13,0x16,0x18,0x1a,0x10,0x2c,0x2d,0x2d,0,0,0,0,0,";
"    0,0,0,0,0,0,0,0,0,0,0,0,0,0,0,0,";
"    0,0,0,0,0,0,0,0,0,0,0,0,0,0,4,0x1d,";
"    0,3,3,3,0,3,0x2c,0x2c,0x2d,4,4,4,4,4,4,4,";
"    4,0xd,0xd,0xd,0xd,0xd,0xd,0xd,6,6,6,6,6,6,6,6,";
"    6,0x1f,0x1f,0x1f,0x1f,0x1f,0x1f,0x1f,0x1f,0x1f,0x23,0x23,0x23,0x21,0x21,0x28,";
"    1,9,9,9,9,9,9,0x1d,0x1d,0xb,0x26,0xb,0x13,0x13,0x13,0xb,";
"    0xb,0xb,0xb,0xb,0xb,0x16,0x16,0x16,0x16,0x1a,0x1a,0x1a,0x1a,0x38,0x15,0xd,";
"    0x2a,0x11,0x11,0xe,0x2c,0x2c,0x2c,0x2c,0x2c,0x2c,0x2c,0x2c,0x37,0x2f,0x37,0x2c,";
"    0x2d,0x2d,0x2e,0x2e,0,0x2a,0,0,0,0,0,0,0,0,0,0,";
"    0,0,0,0,0,0,0,0,0,0,0,0,0,0,6,0x1f,";
"    0,0,0,0,0,0,0,0,0,0,0x23,0x21,1,0,0,0x15,";
"    0,0,0,0,0,0,0,0,0,0,0,0,0,0,0,0,";
"    2,0,5,0xc,0xc,7,7,0xf,0x27,0x32,0x12,0x2b,0x2b,0x30,0x31,0x14,";
"    0x17,0x19,0x1b,0x24,0xa,8,0x1c,0x20,0x22,0x1e,7,0x25,0x29,5,0xc,7,";
"    0,0,0,0,0,0,0,0,0,0,0,0,0,0,0,0,";
"    0,0,0,0,0,0,0,0,0,0,0,0,0,0x35,0x34,0x33,";
"    4,4,4,4,4,4,4,0xd,0xd,6,6,0x1f,0x23,1,1,1,";
"    9,9,0xb,0xb,0xb,0x18,0x18,0x1a,0x1a,0x1a,0x16,0x1f,0x1f,0x23,0xd,0xd,";
"    0x23,0x1f,0xd,3,3,0x37,0x37,0x2d,0x2c,0x2c,0x36,0x36,0xd,0x23,0x23,0x13,";
"    0,0,0,0,0,0,0,0,0,0,0,0,0,0,0,0,";
"    0,0,0,0,0,0,0,0,0,0,0,0,0,0,0,0,";
"    0,0,0,0,0,0,0,0,0,0,0,0,0,0,0,0,";
"    0,0,0,0,0,0,0,0,0,0,0,0,0,0,0,0,";
"    0,0,0,0,0,0,0,0,0,0,0,0,0,0,0,0,";
"    0,0,0,0,0,0,0,0,0,0,0,0,0,0,0,0,";
"    0,0,0,0,0,0,0,0,0,0,0,0,0,0,0,0,";
"    0,0,0,0,0,0,0,0,0,0,0,0,0,0,0,0,";
"    0,0,0,0,0,0,0,0,0,0,0,0,0,0,0,0,";
"    0,0,0,0,0,0,0,0,0,0,0,0,0,0,0,0,";
"    0,0,0,0,0,0,0,0,0,0,0,0,0,0,0,0,";
"    0,0,0,0,0,0,0,0,0,0,0,0,0,0,0,0,";
"    0,0,0,0,0,0,0,0,0,0,0,0,0,0,0,0,";
"    0,0,0,0,0,0,0,0,0,0,0,0,0,0,0,0,";
"    0x5d,0x5a,0x60,0x63,0x5e,0x5f,0x59,0x61,0x5b,0x5c,0x62,0,0,0,0,0,";
"    0,0,0,0,0,0,0,0,0,0,0,0,0,0,0,0,";
"    0,0,0,0,0,0,0,0,0,0,0,0,0,0,0,0,";
"    0,0,0,0,0,0,0,0,0,0,0,0,0,0,0,0,";
"    4,4,0xd,0x28,9,0x1d,0x16,0x18,0x2d,0x2d,0x1f,0x2c,0x39,0,6,0x21,";
"    0xb,0x55,0x1f,1,0x13,0,4,4,4,0x1f,0x2d,0x56,0x58,0x57,4,4,";
"    4,0xd,0xb,1,0x58,0xd,0xd,0x16";
"]";
"";
"ubidi_props_jgArray2 = [";
"    0x3a,0x3c,0x3c,0x40,0x40,0x3d,0,0x52,0,0x54,0x54,0,0,0x41,0x4f,0x53,";
"    0x43,0x43,0x43,0x44,0x3e,0x50,0x45,0x46,0x4c,0x3b,0x3b,0x48,0x48,0x4b,0x49,0x49,";
"    0x49,0x4a,0,0,0x4d,0,0,0,0,0,0,0x47,0x3f,0x4e,0x51,0x42,";
"    0,0,0,0,0,0,0,0,0,0,0,0,0,0,0,0,";
"    0,0,0,0,0,0,0,0,0,0,0,0,0,0,0,0,";
"    0,0,0,0,0,0,0,0,0,0,0,0,0,0,0,0,";
"    0,0,0,0,0,0,0,0,0,0,0,0,0,0,0,0,";
"    0,0,0,0,0,0,0,0,0,0,0,0,0,0,0,0,";
"    0,0,0,0,0,0,0,0,0,0,0,0,0,0,0,0,";
"    0,0,0,0,0,0,0,0,0,0,0,0,0,0,0,0,";
"    0,0,0,0,0,0,0,0,0,0,0,0,0,0,0,0,";
"    0,0,0,0,0,0,0,0,0,0,0,0,0,0,0,0,";
"    0,0,0,0,0,0,0,0,0,0,0,0,0,0,0,0,";
"    0,0,0,0,0,0,0,0,0,0,0,0,0,0,0,0,";
"    0,0,0,0,0,0,0,0,0,0,0,0,0,0,0,0,";
"    0,0,0,0,0,0,0,0,0,0,0,0,0,0,0,0,";
"    0,0,0,0,0,0,0,0,0,0,0,0,0,0,0,0,";
"    0,0,0,0,0,0,0,0,0,0,0,0,0,0,0,0,";
"    0,0,0,0,0,0,0,0,0,0,0,0,0,0,0,0,";
"    0,0,0,0,0,0,0,0,0,0,0,0,0,0,0,0,";
"    0,0,0,0,0,0,0,0,0,0,0,0,0,0,0,0,";
"    0,0,0,0,0,0,0,0,0,0,0,0,0,0,0,0,";
"    0,0,0,0,0,0,0,0,0,0,0,0,0,0,0,0,";
"    0,0,0,0,0,0,0,0,0,0,0,0,0,0,0,0,";
"    0,0,0,0,0,0,0,0,0,0,0,0,0,0,0,0,";
"    0,0,0,0,0,0,0,0,0,0,0,0,0,0,0,0,";
"    0,0,0,0,0,0,0,0,0,0,0,0,0,0,0,0,";
"    0,0,0,0,0,0,0,0,0,0,0,0,0,0,0,0,";
"    0,0,0,0,0,0,0,0,0,0,0,0,0,0,0,0,";
"    0,0,0,0,0,0,0,0,0,0,0,0,0,0,0,0,";
"    0,0,0,0,0,0,0,0,0,0,0,0,0,0,0,0,";
"    0,0,0,0,0,0,0,0,0,0,0,0,0,0,0,0,";
"    0,0,0,0,0,0,0,0,0,0,0,0,0,0,0,0,";
"    0,0,0,0,0,0,0,0,0,0,0,0,0,0,0,0,";
"    0,0,0,0,0,0,0,0,0,0,0,0,0,0,0,0,";
"    0,0,0,0,0,0,0,0,0,0,0,0,0,0,0,0,";
"    0,0,0x65,0,0,0,0,0,0,0x65,0,0,0,0,0,0,";
"    0,0,0,0,0,0,0,0,0,0x64,0,0,0x65,0,0x64,0,";
"    0x64,0,0,0x64";
"]";
"";
"ubidi_props_trie_index_length = 3568";
"ubidi_props_trie_index_2_null_offset = 0x1a0";
"ubidi_props_trie_data_null_offset = 0xe70";
"ubidi_props_trie_high_start = 0x110000";
"ubidi_props_trie_high_value_index = 0x30f4";
""].

(** CasePropsData.py:1-925 *)
Definition CasePropsData_lines : list string := [
"""""""/";
"CasePropsData.py, based on ucase_props_data.h from ICU";
"";
"Generated by ModuleBuilder.py on August 26, 2021 at 11:27:13 AM HST";
"""""""";
"";
"ucase_props_indexes = [0x10,0x70c2,0x6098,0x683,0x172,0,0,0,0,0,0,0,0,0,0,3]";
"";
"ucase_props_trieIndex = [";
"    0x336,0x33e,0x346,0x34e,0x35c,0x364,0x36c,0x374,0x37c,0x384,0x38b,0x393,0x39b,0x3a3,0x3ab,0x3b3,";
"    0x3b9,0x3c1,0x3c9,0x3d1,0x3d9,0x3e1,0x3e9,0x3f1,0x3f9,0x401,0x409,0x411,0x419,0x421,0x429,0x431,";
"    0x439,0x441,0x449,0x451,0x459,0x461,0x469,0x471,0x46d,0x475,0x47a,0x482,0x489,0x491,0x499,0x4a1,";
"    0x4a9,0x4b1,0x4b9,0x4c1,0x355,0x35d,0x4c6,0x4ce,0x4d3,0x4db,0x4e3,0x4eb,0x4ea,0x4f2,0x4f7,0x4ff,";
"    0x507,0x50e,0x512,0x355,0x355,0x355,0x519,0x521,0x529,0x52b,0x533,0x53b,0x53f,0x540,0x548,0x550,";
"    0x558,0x540,0x560,0x565,0x558,0x540,0x56d,0x575,0x53f,0x57d,0x585,0x58d,0x595,0x355,0x59d,0x355,";
"    0x5a5,0x4ec,0x5ad,0x58d,0x53f,0x57d,0x5b4,0x58d,0x5bc,0x5be,0x548,0x58d,0x53f,0x355,0x5c6,0x355,";
"    0x355,0x5cc,0x5d3,0x355,0x355,0x5d7,0x5df,0x355,0x5e3,0x5ea,0x355,0x5f1,0x5f9,0x600,0x608,0x355,";
"    0x355,0x60d,0x615,0x61d,0x625,0x62d,0x634,0x63c,0x355,0x355,0x355,0x355,0x355,0x355,0x355,0x355,";
"    0x355,0x355,0x355,0x355,0x355,0x355,0x355,0x355,0x355,0x355,0x644,0x355,0x355,0x654,0x654,0x64c,";
"    0x355,0x355,0x355,0x355,0x355,0x355,0x355,0x355,0x355,0x355,0x355,0x355,0x355,0x355,0x355,0x355,";
"    0x355,0x355,0x355,0x355,0x355,0x355,0x355,0x355,0x65c,0x65c,0x54c,0x54c,0x355,0x662,0x66a,0x355,";
"    0x672,0x355,0x67a,0x355,0x681,0x687,0x355,0x355,0x355,0x68f,0x355,0x355,0x355,0x355,0x355,0x355,";
"    0x696,0x355,0x69d,0x6a5,0x355,0x6ad,0x6b5,0x355,0x57c,0x6b8,0x6c0,0x6c6,0x5bc,0x6ce,0x355,0x6d5,";
"    0x355,0x6da,0x355,0x6e0,0x6e8,0x6ec,0x6f4,0x6fc,0x704,0x709,0x70c,0x714,0x724,0x71c,0x734,0x72c,";
"    0x37c,0x73c,0x37c,0x744,0x747,0x37c,0x74f,0x37c,0x757,0x75f,0x767,0x76f,0x777,0x77f,0x787,0x78f,";
"    0x797,0x79e,0x355,0x7a6,0x7ae,0x355,0x7b6,0x7be,0x7c6,0x7ce,0x7d6,0x7de,0x7e6,0x355,0x355,0x355,";
"    0x355,0x355,0x355,0x355,0x355,0x355,0x355,0x355,0x355,0x355,0x355,0x355,0x355,0x355,0x355,0x355,";
"    0x355,0x355,0x355,0x355,0x355,0x7e9,0x7ef,0x7f5,0x355,0x355,0x355,0x355,0x355,0x355,0x355,0x355,";
"    0x355,0x355,0x355,0x355,0x355,0x355,0x355,0x355,0x355,0x355,0x355,0x355,0x355,0x355,0x355,0x355,";
"    0x355,0x355,0x355,0x355,0x355,0x355,0x355,0x355,0x355,0x355,0x355,0x355,0x355,0x355,0x355,0x355,";
"    0x355,0x355,0x355,0x355,0x355,0x355,0x355,0x355,0x355,0x355,0x355,0x355,0x355,0x355,0x355,0x355,";
"    0x7fd,0x802,0x806,0x80e,0x37c,0x37c,0x37c,0x816,0x81e,0x825,0x355,0x82a,0x355,0x355,0x355,0x832,";
"    0x355,0x677,0x355,0x355,0x355,0x355,0x355,0x355,0x355,0x355,0x355,0x355,0x355,0x355,0x355,0x355,";
"    0x53e,0x83a,0x355,0x355,0x841,0x355,0x355,0x849,0x355,0x355,0x355,0x355,0x355,0x355,0x355,0x355,";
"    0x355,0x355,0x355,0x355,0x355,0x355,0x355,0x355,0x355,0x355,0x355,0x355,0x355,0x355,0x355,0x355,";
"    0x355,0x355,0x355,0x355,0x355,0x355,0x355,0x355,0x355,0x355,0x355,0x355,0x355,0x355,0x355,0x355,";
"    0x355,0x355,0x355,0x355,0x355,0x355,0x355,0x355,0x355,0x355,0x355,0x355,0x355,0x355,0x355,0x355,";
"    0x355,0x355,0x355,0x355,0x355,0x355,0x355,0x355,0x355,0x355,0x355,0x355,0x355,0x355,0x355,0x355,";
"    0x355,0x355,0x355,0x355,0x355,0x355,0x355,0x355,0x355,0x355,0x355,0x355,0x355,0x355,0x355,0x355,";
"    0x355,0x355,0x355,0x355,0x355,0x355,0x355,0x355,0x355,0x355,0x355,0x355,0x355,0x355,0x355,0x355,";
"    0x355,0x355,0x355,0x355,0x355,0x355,0x355,0x355,0x355,0x355,0x355,0x355,0x355,0x355,0x355,0x355,";
"    0x355,0x355,0x355,0x355,0x355,0x355,0x355,0x355,0x355,0x355,0x355,0x355,0x355,0x355,0x355,0x355,";
"    0x355,0x355,0x355,0x355,0x355,0x355,0x355,0x355,0x355,0x355,0x355,0x355,0x355,0x355,0x355,0x355,";
"    0x355,0x355,0x355,0x355,0x355,0x355,0x355,0x355,0x355,0x355,0x355,0x355,0x355,0x355,0x355,0x355,";
"    0x355,0x355,0x355,0x355,0x355,0x355,0x355,0x355,0x355,0x355,0x355,0x355,0x355,0x355,0x355,0x355,";
"    0x355,0x355,0x355,0x355,0x355,0x355,0x355,0x355,0x355,0x355,0x355,0x355,0x355,0x355,0x355,0x355,";
"    0x355,0x355,0x355,0x355,0x355,0x355,0x355,0x355,0x355,0x355,0x355,0x355,0x355,0x355,0x355,0x355,";
"    0x355,0x355,0x355,0x355,0x355,0x355,0x355,0x355,0x355,0x355,0x355,0x355,0x355,0x355,0x355,0x355,";
"    0x355,0x355,0x355,0x355,0x355,0x355,0x355,0x355,0x355,0x355,0x355,0x355,0x355,0x355,0x355,0x355,";
"    0x355,0x355,0x355,0x355,0x355,0x355,0x355,0x355,0x355,0x355,0x355,0x355,0x355,0x355,0x355,0x355,";
"    0x355,0x355,0x355,0x355,0x355,0x355,0x355,0x355,0x355,0x355,0x355,0x355,0x355,0x355,0x355,0x355,";
"    0x355,0x355,0x355,0x355,0x355,0x355,0x355,0x355,0x355,0x355,0x355,0x355,0x355,0x355,0x355,0x355,";
"    0x355,0x355,0x355,0x355,0x355,0x355,0x355,0x355,0x355,0x355,0x355,0x355,0x355,0x355,0x355,0x355,";
"    0x355,0x355,0x355,0x355,0x355,0x355,0x355,0x355,0x355,0x355,0x355,0x355,0x355,0x355,0x355,0x355,";
"    0x355,0x355,0x355,0x355,0x355,0x355,0x355,0x355,0x355,0x355,0x355,0x355,0x355,0x355,0x355,0x355,";
"    0x355,0x355,0x355,0x355,0x355,0x355,0x355,0x355,0x355,0x355,0x355,0x355,0x355,0x355,0x355,0x355,";
"    0x355,0x355,0x355,0x355,0x355,0x355,0x355,0x355,0x355,0x355,0x355,0x355,0x355,0x355,0x355,0x355,";
"    0x355,0x355,0x355,0x355,0x355,0x355,0x355,0x355,0x355,0x355,0x355,0x355,0x355,0x355,0x355,0x355,";
"    0x355,0x355,0x355,0x355,0x355,0x355,0x355,0x355,0x355,0x355,0x355,0x355,0x355,0x355,0x355,0x355,";
"    0x355,0x355,0x355,0x355,0x355,0x355,0x355,0x355,0x355,0x355,0x355,0x355,0x355,0x355,0x355,0x355,";
"    0x355,0x355,0x355,0x355,0x355,0x355,0x355,0x355,0x355,0x355,0x355,0x355,0x355,0x355,0x355,0x355,";
"    0x355,0x355,0x355,0x355,0x355,0x355,0x355,0x355,0x355,0x355,0x355,0x355,0x355,0x355,0x355,0x355,";
"    0x355,0x355,0x355,0x355,0x355,0x355,0x355,0x355,0x355,0x355,0x355,0x355,0x355,0x355,0x355,0x355,";
"    0x355,0x355,0x355,0x355,0x355,0x355,0x355,0x355,0x355,0x355,0x355,0x355,0x355,0x355,0x355,0x355,";
"    0x355,0x355,0x355,0x355,0x355,0x355,0x355,0x355,0x355,0x355,0x355,0x355,0x355,0x355,0x355,0x355,";
"    0x355,0x355,0x355,0x355,0x355,0x355,0x355,0x355,0x355,0x355,0x355,0x355,0x355,0x355,0x355,0x355,";
"    0x355,0x355,0x355,0x355,0x355,0x355,0x355,0x355,0x355,0x355,0x355,0x355,0x355,0x355,0x355,0x355,";
"    0x355,0x355,0x355,0x355,0x355,0x355,0x355,0x355,0x355,0x355,0x355,0x355,0x355,0x355,0x355,0x355,";
"    0x355,0x355,0x355,0x355,0x355,0x355,0x355,0x355,0x355,0x355,0x355,0x355,0x355,0x355,0x355,0x355,";
"    0x355,0x355,0x355,0x355,0x355,0x355,0x355,0x355,0x355,0x355,0x355,0x355,0x355,0x355,0x355,0x355,";
"    0x355,0x355,0x355,0x355,0x355,0x355,0x355,0x355,0x355,0x355,0x355,0x355,0x355,0x355,0x355,0x355,";
"    0x355,0x355,0x355,0x355,0x355,0x355,0x355,0x355,0x355,0x355,0x355,0x355,0x355,0x355,0x355,0x355,";
"    0x355,0x355,0x355,0x355,0x355,0x355,0x355,0x355,0x355,0x355,0x355,0x355,0x355,0x355,0x355,0x355,";
"    0x355,0x355,0x355,0x355,0x355,0x355,0x355,0x355,0x355,0x355,0x355,0x355,0x355,0x355,0x355,0x355,";
"    0x355,0x355,0x355,0x355,0x355,0x355,0x355,0x355,0x355,0x355,0x355,0x355,0x355,0x355,0x355,0x355,";
"    0x355,0x355,0x355,0x355,0x355,0x355,0x355,0x355,0x355,0x355,0x355,0x355,0x355,0x355,0x355,0x355,";
"    0x355,0x355,0x355,0x355,0x355,0x355,0x355,0x355,0x355,0x355,0x355,0x355,0x355,0x355,0x355,0x355,";
"    0x355,0x355,0x355,0x355,0x355,0x355,0x355,0x355,0x355,0x355,0x355,0x355,0x355,0x355,0x355,0x355,";
"    0x355,0x355,0x355,0x355,0x355,0x355,0x355,0x355,0x355,0x355,0x355,0x355,0x355,0x355,0x355,0x355,";
"    0x355,0x355,0x355,0x355,0x355,0x355,0x355,0x355,0x355,0x355,0x355,0x355,0x355,0x355,0x355,0x355,";
"    0x355,0x355,0x355,0x355,0x355,0x355,0x355,0x355,0x355,0x355,0x355,0x355,0x355,0x355,0x355,0x355,";
"    0x355,0x355,0x355,0x355,0x355,0x355,0x355,0x355,0x355,0x355,0x355,0x355,0x355,0x355,0x355,0x355,";
"    0x355,0x355,0x355,0x355,0x355,0x355,0x355,0x355,0x355,0x355,0x355,0x355,0x355,0x355,0x355,0x355,";
"    0x355,0x355,0x355,0x355,0x355,0x355,0x355,0x355,0x355,0x355,0x355,0x355,0x355,0x355,0x355,0x355,";
"    0x355,0x355,0x355,0x355,0x355,0x355,0x355,0x355,0x355,0x355,0x355,0x355,0x355,0x355,0x355,0x355,";
"    0x355,0x355,0x355,0x355,0x355,0x355,0x355,0x355,0x355,0x355,0x355,0x355,0x355,0x355,0x355,0x355,";
"    0x355,0x355,0x355,0x355,0x355,0x355,0x355,0x355,0x355,0x355,0x355,0x355,0x355,0x355,0x355,0x355,";
"    0x355,0x355,0x355,0x355,0x355,0x355,0x355,0x355,0x355,0x355,0x355,0x355,0x355,0x355,0x355,0x355,";
"    0x355,0x355,0x355,0x355,0x355,0x355,0x355,0x355,0x355,0x355,0x355,0x355,0x355,0x355,0x355,0x355,";
"    0x851,0x355,0x355,0x355,0x355,0x355,0x355,0x355,0x355,0x355,0x355,0x355,0x355,0x355,0x355,0x355,";
"    0x355,0x355,0x355,0x355,0x355,0x355,0x355,0x355,0x355,0x355,0x355,0x355,0x355,0x355,0x355,0x355,";
"    0x355,0x355,0x355,0x355,0x355,0x355,0x355,0x6e0,0x355,0x355,0x355,0x355,0x355,0x355,0x355,0x355,";
"    0x857,0x355,0x85f,0x864,0x86c,0x355,0x355,0x874,0x87c,0x884,0x37c,0x889,0x891,0x897,0x89f,0x8a2,";
"    0x8aa,0x8b1,0x355,0x355,0x355,0x355,0x8b8,0x8c0,0x355,0x8c8,0x8cf,0x355,0x529,0x8d4,0x8dc,0x681,";
"    0x355,0x8e2,0x8ea,0x8ee,0x355,0x8f6,0x8fe,0x906,0x355,0x90c,0x910,0x918,0x928,0x920,0x355,0x930,";
"    0x355,0x355,0x355,0x355,0x355,0x355,0x355,0x355,0x355,0x355,0x355,0x355,0x355,0x355,0x355,0x355,";
"    0x355,0x355,0x355,0x355,0x355,0x355,0x355,0x355,0x355,0x355,0x355,0x355,0x355,0x355,0x355,0x355,";
"    0x355,0x355,0x355,0x355,0x355,0x355,0x355,0x355,0x355,0x355,0x355,0x355,0x355,0x355,0x355,0x355,";
"    0x355,0x355,0x355,0x355,0x355,0x355,0x355,0x355,0x355,0x355,0x355,0x355,0x355,0x355,0x355,0x355,";
"    0x355,0x355,0x355,0x355,0x355,0x355,0x355,0x355,0x355,0x355,0x355,0x355,0x355,0x355,0x355,0x355,";
"    0x355,0x355,0x355,0x355,0x355,0x355,0x355,0x355,0x355,0x355,0x355,0x355,0x355,0x355,0x355,0x355,";
"    0x355,0x355,0x355,0x355,0x355,0x355,0x355,0x355,0x355,0x355,0x355,0x355,0x355,0x355,0x355,0x355,";
"    0x355,0x355,0x355,0x355,0x355,0x355,0x355,0x355,0x355,0x355,0x355,0x355,0x355,0x355,0x355,0x355,";
"    0x355,0x355,0x355,0x355,0x355,0x355,0x355,0x355,0x355,0x355,0x355,0x355,0x355,0x355,0x355,0x355,";
"    0x355,0x355,0x355,0x355,0x355,0x355,0x355,0x355,0x355,0x355,0x355,0x355,0x355,0x355,0x355,0x355,";
"    0x355,0x355,0x355,0x355,0x355,0x355,0x355,0x355,0x355,0x355,0x355,0x355,0x355,0x355,0x355,0x355,";
"    0x355,0x355,0x355,0x355,0x355,0x355,0x355,0x355,0x355,0x355,0x355,0x355,0x355,0x355,0x355,0x355,";
"    0x355,0x355,0x355,0x355,0x355,0x355,0x355,0x355,0x355,0x355,0x355,0x355,0x355,0x355,0x355,0x355,";
"    0x355,0x355,0x355,0x355,0x355,0x355,0x355,0x355,0x355,0x355,0x355,0x355,0x355,0x355,0x355,0x355,";
"    0x355,0x355,0x355,0x355,0x355,0x355,0x355,0x355,0x355,0x355,0x355,0x355,0x355,0x355,0x355,0x355,";
"    0x355,0x355,0x355,0x355,0x355,0x355,0x355,0x355,0x355,0x355,0x355,0x355,0x355,0x355,0x355,0x355,";
"    0x355,0x355,0x355,0x355,0x355,0x355,0x355,0x355,0x355,0x355,0x355,0x355,0x355,0x355,0x355,0x355,";
"    0x355,0x355,0x355,0x355,0x355,0x355,0x355,0x355,0x355,0x355,0x355,0x355,0x355,0x355,0x355,0x355,";
"    0x355,0x355,0x355,0x355,0x355,0x355,0x355,0x355,0x355,0x355,0x355,0x355,0x355,0x355,0x355,0x355,";
"    0x355,0x355,0x355,0x355,0x355,0x355,0x355,0x355,0x355,0x355,0x355,0x355,0x355,0x355,0x355,0x355,";
"    0x355,0x355,0x355,0x355,0x355,0x355,0x355,0x355,0x355,0x355,0x355,0x355,0x355,0x355,0x355,0x355,";
"    0x355,0x355,0x355,0x355,0x355,0x355,0x355,0x355,0x355,0x355,0x355,0x355,0x355,0x355,0x355,0x355,";
"    0x355,0x355,0x355,0x355,0x355,0x355,0x355,0x355,0x355,0x355,0x355,0x355,0x355,0x355,0x355,0x355,";
"    0x355,0x355,0x355,0x355,0x355,0x355,0x355,0x355,0x355,0x355,0x355,0x355,0x355,0x355,0x355,0x355,";
"    0x355,0x355,0x355,0x355,0x355,0x355,0x355,0x355,0x355,0x355,0x355,0x355,0x355,0x355,0x355,0x355,";
"    0x355,0x355,0x355,0x355,0x355,0x355,0x355,0x355,0x355,0x355,0x355,0x355,0x355,0x355,0x355,0x355,";
"    0x355,0x355,0x355,0x355,0x355,0x355,0x355,0x355,0x355,0x355,0x355,0x355,0x355,0x355,0x355,0x355,";
"    0x355,0x355,0x355,0x355,0x355,0x355,0x355,0x355,0x355,0x355,0x355,0x355,0x355,0x355,0x355,0x355,";
"    0x355,0x355,0x355,0x355,0x355,0x355,0x355,0x355,0x355,0x355,0x355,0x355,0x355,0x355,0x355,0x355,";
"    0x355,0x355,0x355,0x355,0x355,0x355,0x355,0x355,0x355,0x355,0x355,0x355,0x355,0x355,0x355,0x355,";
"    0x355,0x355,0x355,0x355,0x355,0x355,0x355,0x355,0x355,0x355,0x355,0x355,0x355,0x355,0x355,0x355,";
"    0x355,0x355,0x355,0x355,0x355,0x355,0x355,0x355,0x355,0x355,0x355,0x355,0x355,0x355,0x355,0x355,";
"    0x355,0x355,0x355,0x355,0x355,0x355,0x355,0x355,0x355,0x355,0x355,0x355,0x355,0x355,0x355,0x355,";
"    0x355,0x355,0x355,0x355,0x355,0x355,0x355,0x355,0x355,0x355,0x355,0x355,0x355,0x355,0x355,0x355,";
"    0x355,0x355,0x355,0x355,0x355,0x355,0x355,0x355,0x355,0x355,0x355,0x355,0x355,0x355,0x355,0x355,";
"    0x355,0x355,0x355,0x355,0x355,0x355,0x355,0x355,0x355,0x355,0x355,0x355,0x355,0x355,0x355,0x355,";
"    0x355,0x355,0x355,0x355,0x355,0x355,0x355,0x355,0x355,0x355,0x355,0x355,0x355,0x355,0x355,0x355,";
"    0x355,0x355,0x355,0x355,0x355,0x355,0x355,0x355,0x355,0x355,0x355,0x355,0x355,0x355,0x355,0x355,";
"    0x355,0x355,0x355,0x355,0x355,0x355,0x355,0x355,0x355,0x355,0x355,0x355,0x355,0x355,0x355,0x355,";
"    0x355,0x355,0x355,0x355,0x355,0x355,0x355,0x355,0x938,0x355,0x355,0x355,0x355,0x940,0x5bc,0x355,";
"    0x355,0x355,0x355,0x355,0x355,0x355,0x355,0x355,0x355,0x355,0x355,0x355,0x355,0x355,0x355,0x355,";
"    0x945,0x94d,0x951,0x355,0x355,0x355,0x355,0x338,0x33e,0x959,0x961,0x968,0x4ec,0x355,0x355,0x970,";
"    0x355,0x355,0x355,0x355,0x355,0x355,0x355,0x355,0x355,0x355,0x355,0x355,0x355,0x355,0x355,0x355,";
"    0x355,0x355,0x355,0x355,0x355,0x355,0x355,0x355,0x355,0x355,0x355,0x355,0x355,0x355,0x355,0x355,";
"    0xd58,0xd58,0xd70,0xdb0,0xdf0,0xe2c,0xe6c,0xeac,0xee4,0xf24,0xf64,0xfa4,0xfe4,0x1024,0x1064,0x10a4,";
"    0x10e4,0x1124,0x1164,0x11a4,0x11b4,0x11e8,0x1224,0x1264,0x12a4,0x12e4,0xd54,0x1318,0x134c,0x138c,0x13a8,0x13dc,";
"    0x9e1,0xa11,0xa51,0xa90,0x188,0x188,0xac8,0x188,0x188,0x188,0x188,0x188,0x188,0xaf1,0x188,0x188,";
"    0x188,0x188,0x188,0x188,0x188,0x188,0x188,0xb31,0x188,0x188,0xb66,0xba5,0xbe5,0xc1f,0xc56,0x188,";
"    0x188,0x188,0x188,0x188,0x188,0x188,0x188,0x188,0x188,0x188,0x188,0x188,0x188,0x188,0x188,0x188,";
"    0x188,0x188,0x188,0x188,0x188,0x188,0x188,0x188,0x188,0x188,0x188,0x188,0x188,0x188,0x188,0x188,";
"    0x188,0x188,0x188,0x188,0x188,0x188,0x188,0x188,0x188,0x188,0x188,0x188,0x188,0x188,0x188,0x188,";
"    0x188,0x188,0x188,0x188,0x188,0x188,0x188,0x188,0x188,0x188,0x188,0x188,0x188,0x188,0x188,0x188,";
"    0x188,0x188,0x188,0x188,0x188,0x188,0x188,0x188,0x188,0x188,0x188,0x188,0x188,0x188,0x188,0x188,";
"    0x188,0x188,0x188,0x188,0x188,0x188,0x188,0x188,0x188,0x188,0x188,0x188,0x188,0x188,0x188,0x188,";
"    0x188,0x188,0x188,0x188,0x188,0x188,0x188,0x188,0x188,0x188,0x188,0x188,0x188,0x188,0x188,0x188,";
"    0x188,0x188,0x188,0x188,0x188,0x188,0x188,0x188,0x188,0x188,0x188,0x188,0x188,0x188,0x188,0x188,";
"    0x188,0x188,0x188,0x188,0x188,0x188,0x188,0x188,0x188,0x188,0x188,0x188,0x188,0x188,0x188,0x188,";
"    0x188,0x188,0x188,0x188,0x188,0x188,0x188,0x188,0x188,0x188,0x188,0x188,0x188,0x188,0x188,0x188,";
"    0x188,0x188,0x188,0x188,0x188,0x188,0x188,0x188,0x188,0x188,0x188,0x188,0x188,0x188,0x188,0x188,";
"    0x188,0x188,0x188,0x188,0x188,0x188,0x188,0x188,0x188,0x188,0x188,0x188,0x188,0x188,0x188,0x188,";
"    0x188,0x188,0x188,0x188,0x188,0x188,0x188,0x188,0x188,0x188,0x188,0x188,0x188,0x188,0x188,0x188,";
"    0x188,0x188,0x188,0x188,0x188,0x188,0x188,0x188,0x188,0x188,0x188,0x188,0x188,0x188,0x188,0x188,";
"    0x188,0x188,0x188,0x188,0x188,0x188,0x188,0x188,0x188,0x188,0x188,0x188,0x188,0x188,0x188,0x188,";
"    0x188,0x188,0x188,0x188,0x188,0x188,0x188,0x188,0x188,0x188,0x188,0x188,0x188,0x188,0x188,0x188,";
"    0x188,0x188,0x188,0x188,0x188,0x188,0x188,0x188,0x188,0x188,0x188,0x188,0x188,0x188,0x188,0x188,";
"    0x188,0x188,0x188,0x188,0x188,0x188,0x188,0x188,0x188,0x188,0x188,0x188,0x188,0x188,0x188,0x188,";
"    0x188,0x188,0x188,0x188,0x188,0x188,0x188,0x188,0x188,0x188,0x188,0x188,0x188,0x188,0x188,0x188,";
"    0x188,0x188,0x188,0x188,0x188,0x188,0x188,0x188,0x188,0x188,0x188,0x188,0x188,0x188,0x188,0x188,";
"    0x188,0x188,0x188,0x188,0x188,0x188,0x188,0x188,0x188,0x188,0x188,0x188,0x188,0x188,0x188,0x188,";
"    0x188,0x188,0x188,0x188,0x188,0x188,0x188,0x188,0x188,0x188,0x188,0x188,0x188,0x188,0x188,0x188,";
"    0x188,0x188,0x188,0x188,0x188,0x188,0x188,0x188,0x188,0x188,0x188,0x188,0x188,0x188,0x188,0x188,";
"    0x188,0x188,0x188,0x188,0x188,0x188,0x188,0x188,0x188,0x188,0x188,0x188,0x188,0x188,0x188,0x188,";
"    0xc96,0x355,0x355,0x355,0x355,0x355,0x355,0x355,0x355,0x355,0x355,0x355,0x355,0x355,0x355,0x355,";
"    0x977,0x355,0x355,0x355,0x355,0x355,0x355,0x355,0x6b5,0x355,0x355,0x355,0x97f,0x355,0x355,0x355,";
"    0x355,0x987,0x98d,0x991,0x355,0x355,0x995,0x999,0x99f,0x355,0x355,0x355,0x355,0x355,0x355,0x355,";
"    0x355,0x355,0x355,0x355,0x355,0x355,0x355,0x355,0x355,0x355,0x355,0x355,0x355,0x355,0x355,0x355,";
"    0x355,0x9a7,0x9ab,0x355,0x355,0x355,0x355,0x355,0x9b3,0x355,0x355,0x355,0x355,0x355,0x355,0x355,";
"    0x355,0x355,0x355,0x355,0x355,0x9bb,0x9bf,0x9c7,0x9cb,0x355,0x9d2,0x355,0x355,0x355,0x355,0x355,";
"    0x355,0x355,0x355,0x355,0x355,0x355,0x9d8,0x355,0x355,0x355,0x355,0x9df,0x355,0x355,0x355,0x355,";
"    0x355,0x53f,0x9e4,0x9eb,0x5bd,0x5bc,0x9ef,0x53c,0x355,0x9f7,0x9fe,0x355,0xa04,0x5bc,0xa09,0xa11,";
"    0x355,0x355,0xa16,0x355,0x355,0x355,0x355,0x338,0xa1e,0x5bc,0x5be,0xa26,0xa2d,0x355,0x355,0x355,";
"    0x355,0x355,0x9e4,0xa35,0x355,0x355,0xa3d,0xa45,0x355,0x355,0x355,0x355,0x355,0x355,0xa49,0xa51,";
"    0x355,0x355,0xa59,0x4b0,0x355,0x355,0xa61,0x355,0x355,0xa67,0xa6f,0x355,0x355,0x355,0x355,0x355,";
"    0x355,0xa74,0x355,0x355,0x355,0xa7c,0xa84,0x355,0x355,0xa8c,0xa94,0x355,0x355,0x355,0xa97,0x6b5,";
"    0xa9f,0xaa3,0xaab,0x355,0xab2,0x355,0x355,0x355,0x355,0x355,0x355,0x355,0x355,0x355,0x355,0x355,";
"    0x355,0xab9,0x355,0x355,0x940,0xac1,0x355,0x355,0x355,0xac7,0xacf,0x355,0xad3,0x355,0x355,0x355,";
"    0x355,0x355,0x355,0x355,0x355,0x355,0x355,0xad9,0x355,0x355,0x355,0x355,0x355,0x355,0x355,0x355,";
"    0x355,0x355,0x355,0x355,0x355,0x355,0x355,0x355,0x355,0x355,0x355,0x355,0x355,0x355,0x355,0x355,";
"    0x355,0x355,0x355,0x355,0x355,0x355,0x355,0x355,0x355,0xadf,0x355,0x355,0x355,0x355,0x355,0x355,";
"    0x355,0x355,0x355,0x355,0x355,0x355,0x355,0x355,0x355,0x355,0x355,0x355,0x355,0x355,0x355,0x355,";
"    0x355,0x355,0x355,0x355,0x355,0x355,0x355,0x355,0xae6,0x355,0xaec,0x57c,0x355,0x355,0x355,0x355,";
"    0x355,0x355,0x355,0x355,0x355,0x355,0x355,0x355,0x355,0x355,0x355,0x355,0x355,0x355,0x355,0x355,";
"    0x355,0x355,0x355,0xa7c,0xa84,0x355,0x355,0x355,0x355,0x355,0x355,0x677,0x355,0xaf2,0x355,0x355,";
"    0xafa,0x355,0x355,0x355,0x355,0x355,0x355,0x355,0x355,0x355,0x355,0x355,0x355,0x355,0x355,0x355,";
"    0x355,0x355,0x355,0x355,0x355,0x355,0x355,0x355,0x355,0x355,0x355,0x355,0x355,0x355,0x355,0x355,";
"    0x355,0x355,0x355,0x355,0x355,0xaff,0x57c,0x355,0x355,0x355,0x355,0x355,0x355,0x355,0x355,0x355,";
"    0x355,0x355,0x355,0x355,0x355,0x355,0x355,0x355,0x355,0x355,0x355,0x355,0x355,0x355,0x355,0x355,";
"    0x355,0xb07,0xb0f,0xb15,0x355,0x355,0x355,0x355,0xb1d,0x355,0x355,0x355,0x355,0x355,0x355,0x355,";
"    0x355,0x355,0x355,0x355,0x355,0x355,0xb25,0xb2d,0xb32,0xb38,0xb40,0xb48,0xb50,0xb29,0xb58,0xb60,";
"    0xb68,0xb6f,0xb2a,0xb25,0xb2d,0xb28,0xb38,0xb2b,0xb26,0xb77,0xb29,0xb7f,0xb87,0xb8f,0xb96,0xb82,";
"    0xb8a,0xb92,0xb99,0xb85,0xba1,0x355,0x355,0x355,0x355,0x355,0x355,0x355,0x355,0x355,0x355,0x355,";
"    0x355,0x355,0x355,0x355,0x355,0x87c,0xba9,0x87c,0xbb0,0xbb7,0xbbf,0x355,0x355,0x355,0x355,0x355,";
"    0x355,0x355,0x355,0x355,0x355,0x355,0x355,0x355,0x355,0x355,0x355,0x355,0x355,0x355,0x355,0x355,";
"    0x355,0x355,0x355,0x355,0x355,0x355,0x355,0x355,0x355,0x355,0x355,0x355,0x355,0x355,0x355,0x355,";
"    0x355,0x355,0x355,0x355,0x355,0xbc7,0xbcf,0x355,0x355,0x355,0x355,0x355,0x355,0x355,0xbd3,0x355,";
"    0x355,0x355,0x355,0x355,0x355,0x355,0x355,0x355,0x355,0x355,0x355,0x355,0x9d0,0x355,0x355,0x355,";
"    0x355,0x355,0x355,0x355,0x355,0x355,0x355,0x355,0x355,0x355,0x355,0x355,0x355,0x355,0x355,0x355,";
"    0x355,0x355,0x355,0x355,0x355,0x355,0x355,0x355,0x355,0x355,0x355,0x355,0x355,0x355,0x355,0x355,";
"    0x355,0x355,0x355,0x355,0x355,0xbdb,0x355,0xbe3,0xbeb,0xbf2,0x355,0x355,0x355,0x355,0x355,0x355,";
"    0x355,0x355,0x355,0x355,0x355,0x355,0x355,0x355,0x355,0x355,0x355,0x355,0x355,0x355,0x355,0x355,";
"    0x355,0x355,0x355,0x355,0x355,0x355,0x355,0x355,0x355,0x355,0x355,0x355,0x355,0x355,0x355,0x355,";
"    0x355,0x355,0x355,0x355,0x355,0x355,0x355,0x355,0x355,0x355,0x355,0x355,0x355,0x355,0x355,0xb21,";
"    0xbfa,0xbfa,0xc00,0x355,0x355,0x355,0x355,0x355,0x355,0x355,0x355,0x355,0x355,0x355,0x355,0x355,";
"    0x355,0x355,0x355,0x355,0x355,0x9f9,0x355,0x355,0x355,0x355,0x355,0x355,0x355,0x355,0x355,0x355,";
"    0x355,0x355,0x355,0x355,0x355,0x355,0x355,0x355,0x355,0x355,0x355,0x355,0x355,0x355,0x355,0x355,";
"    0x355,0x355,0x355,0x355,0x355,0x355,0x53f,0x87c,0x87c,0x87c,0x355,0x355,0x355,0x355,0x87c,0x87c,";
"    0x87c,0x87c,0x87c,0x87c,0x87c,0xc08,0x355,0x355,0x355,0x355,0x355,0x355,0x355,0x355,0x355,0x355,";
"    0x355,0x355,0x355,0x355,0x355,0x355,0x355,0x355,0x355,0x355,0x355,0x355,0x355,0x355,0x355,0x355,";
"    0x355,0x355,0x355,0x355,0x355,0x355,0x355,0x355,0x355,0x355,0x355,0x355,0x355,0x355,0x355,0x355,";
"    0x355,0x355,0x355,0x355,0x355,0x355,0x335,0x335,0,0,0,0,0,0,0,0,";
"    0,0,0,0,0,0,0,0,0,0,0,0,0,0,0,0,";
"    0,0,0,0,0,0,0,0,0,0,0,0,0,0,0,4,";
"    0,0,0,0,0,0,4,0,0,0,0,0,0,0,0,0,";
"    0,0,4,0,0,0,0,0,0,0x1012,0x1012,0x1012,0x1012,0x1012,0x1012,0x1012,";
"    0x1012,0xa,0x5a,0x7a,0x1012,0x1012,0x1012,0x1012,0x1012,0x1012,0x1012,0xba,0x1012,0x1012,0x1012,0x1012,";
"    0x1012,0x1012,0x1012,0,0,0,4,0,4,0xf011,0xf011,0xf011,0xf011,0xf011,0xf011,0xf011,";
"    0xf011,0xf9,0xf031,0x149,0xf011,0xf011,0xf011,0xf011,0xf011,0xf011,0xf011,0x189,0xf011,0xf011,0xf011,0xf011,";
"    0xf011,0xf011,0xf011,0,0,0,0,0,0,0,0,0,0,0,0,0,";
"    0,0,0,0,0,0,0,0,0,0,0,0,0,0,0,0,";
"    0,0,0,0,0,0,0,0,0,0,0,0,0,0,0,0,";
"    0,0,0,0,0,0,0,0,0,0,0,0,0,0,0,0,";
"    0,0,0,0,0,0,0,0,4,0,1,0,0,4,0,4,";
"    0,0,0,0,4,0x1c9,0,4,4,0,1,0,0,0,0,0,";
"    0x1012,0x1012,0x1012,0x1012,0x1012,0x1fa,0x1012,0x1012,0x1012,0x1012,0x1012,0x1012,0x5a,0x5a,0x1012,0x1012,";
"    0x1012,0x1012,0x1012,0x1012,0x1012,0x1012,0x1012,0,0x1012,0x1012,0x1012,0x1012,0x1012,0x1012,0x1012,0x239,";
"    0xf011,0xf011,0xf011,0xf011,0xf011,0x2d9,0xf011,0xf011,0xf011,0xf011,0xf011,0xf011,0xf011,0xf011,0xf011,0xf011,";
"    0xf011,0xf011,0xf011,0xf011,0xf011,0xf011,0xf011,0,0xf011,0xf011,0xf011,0xf011,0xf011,0xf011,0xf011,0x3c91,";
"    0x92,0xff91,0x92,0xff91,0x92,0xff91,0x92,0xff91,0x92,0xff91,0x92,0xff91,0x92,0xff91,0x92,0xff91,";
"    0x92,0xff91,0x92,0xff91,0x92,0xff91,0x92,0xff91,0x92,0xff91,0x92,0xff91,0x92,0xff91,0x92,0xff91,";
"    0x92,0xff91,0x92,0xff91,0x92,0xff91,0x92,0xff91,0x31a,0xff91,0x92,0xff91,0x92,0xff91,0x31a,0xffb1,";
"    0x33a,0x389,0x92,0xff91,0x92,0xff91,0x92,0xff91,1,0x92,0xff91,0x92,0xff91,0x92,0xff91,0x92,";
"    0xff91,0x92,0xff91,0x92,0xff91,0x3d9,0x92,0xff91,0x92,0xff91,0x92,0xff91,0x92,0xff91,0x92,0xff91,";
"    0x92,0xff91,0x92,0xff91,0x92,0xff91,0x92,0xff91,0x92,0xff91,0x92,0xff91,0x92,0xff91,0x92,0xff91,";
"    0x92,0xff91,0x92,0xff91,0x92,0xff91,0x92,0xff91,0x92,0xff91,0x92,0xff91,0x92,0xff91,0x92,0xff91,";
"    0x92,0xff91,0x92,0xff91,0xc392,0x92,0xff91,0x92,0xff91,0x92,0xff91,0x459,0x6191,0x6912,0x92,0xff91,";
"    0x92,0xff91,0x6712,0x92,0xff91,0x6692,0x6692,0x92,0xff91,1,0x2792,0x6512,0x6592,0x92,0xff91,0x6692,";
"    0x6792,0x3091,0x6992,0x6892,0x92,0xff91,0x5191,1,0x6992,0x6a92,0x4111,0x6b12,0x92,0xff91,0x92,0xff91,";
"    0x92,0xff91,0x6d12,0x92,0xff91,0x6d12,1,1,0x92,0xff91,0x6d12,0x92,0xff91,0x6c92,0x6c92,0x92,";
"    0xff91,0x92,0xff91,0x6d92,0x92,0xff91,1,0,0x92,0xff91,1,0x1c11,0,0,0,0,";
"    0x48a,0x4bb,0x4f9,0x52a,0x55b,0x599,0x5ca,0x5fb,0x639,0x92,0xff91,0x92,0xff91,0x92,0xff91,0x92,";
"    0xff91,0x92,0xff91,0x92,0xff91,0x92,0xff91,0x92,0xff91,0xd891,0x92,0xff91,0x92,0xff91,0x92,0xff91,";
"    0x92,0xff91,0x92,0xff91,0x92,0xff91,0x92,0xff91,0x92,0xff91,0x92,0xff91,0x669,0x6ea,0x71b,0x759,";
"    0x92,0xff91,0xcf92,0xe412,0x92,0xff91,0x92,0xff91,0x92,0xff91,0x92,0xff91,0x92,0xff91,0x92,0xff91,";
"    0x92,0xff91,0x92,0xff91,0x92,0xff91,0x92,0xff91,0x92,0xff91,0x92,0xff91,0x92,0xff91,0x92,0xff91,";
"    0x92,0xff91,0x92,0xff91,0xbf12,1,0x92,0xff91,0x92,0xff91,0x92,0xff91,0x92,0xff91,0x92,0xff91,";
"    0x92,0xff91,0x92,0xff91,0x92,0xff91,0x92,0xff91,1,1,1,1,1,1,0x78a,0x92,";
"    0xff91,0xae92,0x7aa,0x7c9,0x7c9,0x92,0xff91,0x9e92,0x2292,0x2392,0x92,0xff91,0x92,0xffb1,0x92,0xff91,";
"    0x92,0xff91,0x92,0xff91,0x7e9,0x809,0x829,0x9711,0x9911,1,0x9991,0x9991,1,0x9b11,1,0x9a91,";
"    0x849,1,1,1,0x9991,0x869,1,0x9891,1,0x889,0x8a9,1,0x97b1,0x9691,0x8a9,0x8c9,";
"    0x8e9,1,1,0x9691,1,0x909,0x9591,1,1,0x9511,1,1,1,1,1,1,";
"    1,0x929,1,1,0x9311,1,0x949,0x9311,1,1,1,0x969,0x9311,0xdd91,0x9391,0x9391,";
"    0xdc91,1,1,1,1,1,0x9291,1,0,1,1,1,1,1,1,1,";
"    1,0x989,0x9a9,1,1,1,1,1,1,1,1,1,1,1,1,1,";
"    1,1,1,1,5,5,0x25,5,5,5,5,5,5,4,4,4,";
"    0x14,4,0x14,4,5,5,4,4,4,4,4,4,4,4,4,4,";
"    4,4,4,4,4,4,4,4,4,4,4,4,4,4,4,4,";
"    4,4,4,4,5,5,5,5,5,4,4,4,4,4,4,4,";
"    4,4,4,4,4,4,4,4,4,4,4,4,4,4,4,4,";
"    4,4,4,4,0x54,0x54,0x44,0x44,0x44,0x44,0x44,0x9cc,0x54,0x44,0x54,0x44,";
"    0x54,0x44,0x44,0x44,0x44,0x44,0x44,0x54,0x44,0x64,0x64,0x64,0x64,0x64,0x64,0x64,";
"    0x64,0x64,0x64,0x64,0x64,0x64,0x64,0x64,0x64,0x64,0x64,0x64,0x64,0x64,0x64,0x64,";
"    0x64,0x64,0x64,0x64,0x64,0x74,0x64,0x64,0x64,0x64,0x64,0x64,0x64,0x64,0x64,0x64,";
"    0x64,0x44,0x44,0x44,0x44,0x44,0x54,0x44,0x44,0x9dd,0x44,0x64,0x64,0x64,0x44,0x44,";
"    0x44,0x64,0x64,4,0x44,0x44,0x44,0x64,0x64,0x64,0x64,0x44,0x64,0x64,0x64,0x44,";
"    0x64,0x64,0x64,0x64,0x64,0x64,0x64,0x44,0x44,0x44,0x44,0x44,0x44,0x44,0x44,0x44,";
"    0x44,0x44,0x44,0x44,0x92,0xff91,0x92,0xff91,4,4,0x92,0xff91,0,0,5,0x4111,";
"    0x4111,0x4111,0,0x3a12,0,0,0,0,4,4,0x1312,4,0x1292,0x1292,0x1292,0,";
"    0x2012,0,0x1f92,0x1f92,0xa29,0x1012,0xafa,0x1012,0x1012,0xb3a,0x1012,0x1012,0xb7a,0xbca,0xc1a,0x1012,";
"    0xc5a,0x1012,0x1012,0x1012,0xc9a,0xcda,0,0xd1a,0x1012,0x1012,0xd5a,0x1012,0x1012,0xd9a,0x1012,0x1012,";
"    0xed11,0xed91,0xed91,0xed91,0xdd9,0xf011,0xea9,0xf011,0xf011,0xee9,0xf011,0xf011,0xf29,0xf79,0xfc9,0xf011,";
"    0x1009,0xf011,0xf011,0xf011,0x1049,0x1089,0x10c9,0x10f9,0xf011,0xf011,0x1139,0xf011,0xf011,0x1179,0xf011,0xf011,";
"    0xe011,0xe091,0xe091,0x412,0x11b9,0x11e9,2,2,2,0x1239,0x1269,0xfc11,0x92,0xff91,0x92,0xff91,";
"    0x92,0xff91,0x92,0xff91,0x92,0xff91,0x92,0xff91,0x92,0xff91,0x92,0xff91,0x92,0xff91,0x92,0xff91,";
"    0x92,0xff91,0x92,0xff91,0x1299,0x12c9,0x391,0xc631,0x12fa,0x1349,0,0x92,0xff91,0xfc92,0x92,0xff91,";
"    1,0xbf12,0xbf12,0xbf12,0x2812,0x2812,0x2812,0x2812,0x2812,0x2812,0x2812,0x2812,0x2812,0x2812,0x2812,0x2812,";
"    0x2812,0x2812,0x2812,0x2812,0x1012,0x1012,0x137a,0x1012,0x13ba,0x1012,0x1012,0x1012,0x1012,0x1012,0x1012,0x1012,";
"    0x1012,0x1012,0x13fa,0x1012,0x1012,0x143a,0x147a,0x1012,0x1012,0x1012,0x1012,0x1012,0x1012,0x1012,0x14ca,0x1012,";
"    0x1012,0x1012,0x1012,0x1012,0xf011,0xf011,0x1509,0xf011,0x1549,0xf011,0xf011,0xf011,0xf011,0xf011,0xf011,0xf011,";
"    0xf011,0xf011,0x1589,0xf011,0xf011,0x15c9,0x1609,0xf011,0xf011,0xf011,0xf011,0xf011,0xf011,0xf011,0x1659,0xf011,";
"    0xf011,0xf011,0xf011,0xf011,0xd811,0xd811,0xd811,0xd811,0xd811,0xd811,0xd831,0xd811,0xd831,0xd811,0xd811,0xd811,";
"    0xd811,0xd811,0xd811,0xd811,0x92,0xff91,0x169a,0x16d9,0x92,0xff91,0x92,0xff91,0x92,0xff91,0x92,0xff91,";
"    0x92,0xff91,0x92,0xff91,0x92,0xff91,0x92,0xff91,0x92,0xff91,0x92,0xff91,0x92,0xff91,0x92,0xff91,";
"    0x92,0xff91,0x92,0xff91,0x92,0xff91,0,0x44,0x44,0x44,0x44,0x44,4,4,0x92,0xff91,";
"    0x92,0xff91,0x92,0xff91,0x92,0xff91,0x92,0xff91,0x92,0xff91,0x92,0xff91,0x92,0xff91,0x92,0xff91,";
"    0x92,0xff91,0x92,0xff91,0x92,0xff91,0x92,0xff91,0x92,0xff91,0x92,0xff91,0x92,0xff91,0x92,0xff91,";
"    0x92,0xff91,0x92,0xff91,0x92,0xff91,0x92,0xff91,0x92,0xff91,0x92,0xff91,0x92,0xff91,0x92,0xff91,";
"    0x92,0xff91,0x92,0xff91,0x792,0x92,0xff91,0x92,0xff91,0x92,0xff91,0x92,0xff91,0x92,0xff91,0x92,";
"    0xff91,0x92,0xff91,0xf891,0x92,0xff91,0x92,0xff91,0x92,0xff91,0x92,0xff91,0x92,0xff91,0x92,0xff91,";
"    0x92,0xff91,0x92,0xff91,0x92,0xff91,0x92,0xff91,0x92,0xff91,0x92,0xff91,0x92,0xff91,0x92,0xff91,";
"    0x92,0xff91,0x92,0xff91,0x92,0xff91,0x92,0xff91,0x92,0xff91,0x92,0xff91,0x92,0xff91,0x92,0xff91,";
"    0x92,0xff91,0x92,0xff91,0,0x1812,0x1812,0x1812,0x1812,0x1812,0x1812,0x1812,0x1812,0x1812,0x1812,0x1812,";
"    0x1812,0x1812,0x1812,0x1812,0x1812,0x1812,0x1812,0x1812,0x1812,0x1812,0x1812,0x1812,0x1812,0x1812,0x1812,0,";
"    0,4,0,0,0,0,0,4,1,0xe811,0xe811,0xe811,0xe811,0xe811,0xe811,0xe811,";
"    0xe811,0xe811,0xe811,0xe811,0xe811,0xe811,0xe811,0xe811,0xe811,0xe811,0xe811,0xe811,0xe811,0xe811,0xe811,0xe811,";
"    0xe811,0xe811,0xe811,0xe811,0xe811,0xe811,0xe811,0xe811,0xe811,0xe811,0xe811,0x1719,1,0,0,0,";
"    0,0,0,0,0,0x64,0x44,0x44,0x44,0x44,0x64,0x44,0x44,0x44,0x64,0x64,";
"    0x44,0x44,0x44,0x44,0x44,0x44,0x64,0x64,0x64,0x64,0x64,0x64,0x44,0x44,0x64,0x44,";
"    0x44,0x64,0x64,0x44,0x64,0x64,0x64,0x64,0x64,0x64,0x64,0x64,0x64,0x64,0x64,0x64,";
"    0x64,0x64,0,0x64,0,0x64,0x64,0,0x44,0x64,0,0x64,0,0,0,0,";
"    0,0,0,0,0,0,0,0,0,0,0,0,0,0,0,0,";
"    0,0,0,0,0,0,0,0,0,0,0,0,0,0,0,0,";
"    0,0,0,0,0,0,0,0,4,0,0,0,0,0,0,0,";
"    0,0,0,0,4,4,4,4,4,4,0,0,0,0,0,0,";
"    0,0,0,0,0x44,0x44,0x44,0x44,0x44,0x44,0x44,0x44,0x64,0x64,0x64,0,";
"    4,0,0,0,0,0,0,0,0,0,0,0,0,0,0,0,";
"    0,0,0,0,0,0,0,0,0,0,0,0,0,0,0,0,";
"    0,0,0,0,4,0,0,0,0,0,0,0,0,0,0,0x64,";
"    0x64,0x64,0x64,0x64,0x64,0x64,0x64,0x44,0x44,0x64,0x64,0x44,0x44,0x44,0x44,0x44,";
"    0x64,0x44,0x44,0x64,0,0,0,0,0,0,0,0,0,0,0,0,";
"    0,0,0,0,0x64,0,0,0,0,0,0,0,0,0,0,0,";
"    0,0,0,0,0,0,0,0,0,0,0,0,0,0,0x44,0x44,";
"    0x44,0x44,0x44,0x44,0x44,4,0,0x44,0x44,0x44,0x44,0x64,0x44,4,4,0x44,";
"    0x44,0,0x64,0x44,0x44,0x64,0,0,0,0,0,0,0,0,0,0,";
"    0,0,0,0,0,0,0,0,0,0,0,4,0,0x64,0,0,";
"    0,0,0,0,0,0,0,0,0,0,0,0,0,0,0,0,";
"    0,0,0,0,0,0,0,0,0,0,0,0,0x44,0x64,0x44,0x44,";
"    0x64,0x44,0x44,0x64,0x64,0x64,0x44,0x64,0x64,0x44,0x64,0x44,0x44,0x44,0x64,0x44,";
"    0x64,0x44,0x64,0x44,0x64,0x44,0x44,0,0,0,0,0,0,0,0,0,";
"    0,0,0,0,0,0,0,0,0,0,0,0,0,0,0,0,";
"    0,0,0,0,0,0,0,0,0,0,0,0,0,0,0,0,";
"    0,0,0,0,0,0,0,0,0,0,0,0,0,0,4,4,";
"    4,4,4,4,4,4,4,4,4,0,0,0,0,0,0,0,";
"    0,0,0,0,0,0,0,0,0,0,0,0,0,0,0,0,";
"    0,0,0,0,0,0,0,0,0,0,0,0,0,0,0,0,";
"    0,0,0,0,0,0,0,0x44,0x44,0x44,0x44,0x44,0x44,0x44,0x64,0x44,";
"    4,4,0,0,0,0,4,0,0,0x64,0,0,0,0,0,0,";
"    0,0,0,0,0,0,0,0,0,0,0,0,0,0,0,0,";
"    0,0,0x44,0x44,0x44,0x44,4,0x44,0x44,0x44,0x44,0x44,4,0x44,0x44,0x44,";
"    4,0x44,0x44,0x44,0x44,0x44,0,0,0,0,0,0,0,0,0,0,";
"    0,0,0,0,0,0,0,0,0,0,0,0,0,0,0,0,";
"    0,0x64,0x64,0x64,0,0,0,0,0,0,0,0,0,0,0,0,";
"    0,0,0,0,0,0,0,0x64,0x44,0x44,0x44,0x44,0x44,0x44,0x44,0x44,";
"    0x44,0x44,0x44,0x44,0x44,0x44,4,0x64,0x44,0x44,0x64,0x44,0x44,0x64,0x44,0x44,";
"    0x44,0x64,0x64,0x64,0x64,0x64,0x64,0x44,0x44,0x44,0x64,0x44,0x44,0x64,0x64,0x44,";
"    0x44,0x44,0x44,0x44,4,4,4,0,0,0,0,0,0,0,0,0,";
"    0,0,0,0,0,0,0,0,0,0,0,0,0,0,0,0,";
"    0,0,0,0,0,0,4,0,0x64,0,0,0,0,4,4,4,";
"    4,4,4,4,4,0,0,0,0,0x64,0,0,0,0x44,0x64,0x44,";
"    0x44,4,4,4,0,0,0,0,0,0,0,0,0,0,4,4,";
"    0,0,0,0,0,0,0,0,0,0,0,0,0,4,0,0,";
"    0,0,0,0,0,0,0,0,0,0,0,0,0,0,0,0,";
"    0,0,0,0,0,0,0,0,0,0,0,0,0x64,0,0,0,";
"    0,4,4,4,4,0,0,0,0,0,0,0,0,0x64,0,0,";
"    0,0,0,0,0,0,0,0,0,0,0,0,0,0,0,0,";
"    0,0,4,4,0,0,0,0,0,0,0,0,0,0,0,0,";
"    0,0,0,0,0,0,0,0,0,0,0,0,0,0,0x44,0,";
"    0,4,4,0,0,0,0,0,0,0,0,0,0,0,0,0,";
"    0,0,0,0,0,0,0,0,0,0,0,0,0,0,0,0,";
"    0,4,4,0,0,0,0,4,4,0,0,4,4,0x64,0,0,";
"    0,4,0,0,0,0,0,0,0,0,0,0,0,0,0,0,";
"    0,0,0,0,4,4,0,0,0,4,0,0,0,0,0,0,";
"    0,0,0,0,0,4,4,4,4,4,0,4,4,0,0,0,";
"    0,0x64,0,0,0,0,0,0,0,0,0,0,0,0,0,0,";
"    0,0,0,0,0,0,4,4,0,0,0,0,0,0,0,0,";
"    0,0,0,0,0,0,0,0,0,0,0,0,0,0,4,4,";
"    4,4,4,4,0,0,0,0,0,0,0,0,0,0,0,0,";
"    0,0,0,0,0,0,0,0,0,0,0,0,0,0,0,0,";
"    0x64,0,0,4,0,4,4,4,4,0,0,0,0,0,0,0,";
"    0,0x64,0,0,0,0,0,0,0,4,4,0,0,0,0,0,";
"    0,0,0,0,0,0,4,4,0,0,0,0,0,0,0,0,";
"    0,0,0,0,0,0,0,0,0,0,0,0,0,0,0,0,";
"    0,0,0,0,0,0,4,0,0,0,0,0,0,0,0,0,";
"    0,0,0,0,0,0,0,0,0,0,0,0,0,0,0,0,";
"    0,0,0,0,4,0,0,0,0,0,0,0,0,0,0,0,";
"    0,0x64,0,0,0,0,0,0,0,0,0,0,0,0,0,0,";
"    0,0,0,0,4,0,0,0,4,0,0,0,0,0,0,0,";
"    0,0,0,0,0,0,0,0,0,0,0,0,0,0,0,0,";
"    0,0,0,0,4,0,0,0,0,0,4,4,4,0,4,4,";
"    4,0x64,0,0,0,0,0,0,0,0x64,0x64,0,0,0,0,0,";
"    0,0,0,0,0,0,4,0,0,0,0,0,4,0x64,0,0,";
"    0,0,0,0,0,0,0,0,0,0,0,0,0,0,0,0,";
"    4,4,0,0,0,0,0,0,0,0,0,0,0,0,0,0,";
"    0,0,0,0,0,0,0,0,0,0,0,0,0,0,0,0,";
"    0,0,0,0x64,0x64,0,0,0,0,0,0,0,0,0,0,0,";
"    0,0,0x64,0,0,0,0,0,0,0,4,4,4,0,4,0,";
"    0,0,0,0,0,0,0,0,0,0,0,0,0,0,0,0,";
"    0,4,0,0,4,4,4,4,0x64,0x64,0x64,0,0,0,0,0,";
"    0,0,4,4,0x64,0x64,0x64,0x64,4,4,4,0,0,0,0,0,";
"    0,0,0,0,0,0,0,0,0,0,0,0,0,4,0,0,";
"    4,4,4,4,0x64,0x64,0x64,4,4,0,0,0,0,0,0,0,";
"    0,0,4,0,0x64,0x64,0x64,0x64,4,4,0,0,0,0,0,0,";
"    0,0,0,0,0,0,0,0,0,0,0,0,0,0,0,0,";
"    0,0,0,0,0x64,0x64,0,0,0,0,0,0,0,0,0,0,";
"    0,0,0,0,0,0,0,0,0,0,0,0,0,0x64,0,0x64,";
"    0,0x64,0,0,0,0,0,0,0,0,0,0,0,0,0,0,";
"    0,0,0,0,0,0x64,0x64,4,0x64,4,4,4,4,4,0x64,0x64,";
"    0x64,0x64,4,0,0x64,4,0x44,0x44,0x64,0,0x44,0x44,0,0,0,0,";
"    0,4,4,4,4,4,4,4,4,4,4,4,0,4,4,4,";
"    4,4,4,4,4,4,4,4,4,4,4,4,4,4,4,4,";
"    4,4,4,4,4,4,4,4,4,4,4,4,4,0,0,0,";
"    0,0,0,0,0,0,0x64,0,0,0,0,0,0,0,0,0,";
"    0,0,0,0,0,0,0,0,0,0,0,0,0,0,0,0,";
"    0,4,4,4,4,0,4,4,4,4,4,0x64,0,0x64,0x64,0,";
"    0,4,4,0,0,0,0,0,0,0,0,0,0,0,0,0,";
"    0,0,0,0,0,0,0,0,0,0,0,0,4,4,0,0,";
"    0,0,4,4,4,0,0,0,0,0,0,0,0,0,0,0,";
"    0,0,0,0,0,4,4,4,4,0,0,0,0,0,0,0,";
"    0,0,0,0,0,0,4,0,0,4,4,0,0,0,0,0,";
"    0,0x64,0,0,0,0,0,0,0,0,0,0,0,0,0,0,";
"    0,4,0,0,0x175a,0x175a,0x175a,0x175a,0x175a,0x175a,0x175a,0x175a,0x175a,0x175a,0x175a,0x175a,";
"    0x175a,0x175a,0x175a,0x175a,0x175a,0x175a,0x175a,0x175a,0x175a,0x175a,0x175a,0x175a,0x175a,0x175a,0x175a,0x175a,";
"    0x175a,0x175a,0x175a,0x175a,0x175a,0x175a,0,0x175a,0,0,0,0,0,0x175a,0,0,";
"    0x1779,0x17a9,0x17d9,0x1809,0x1839,0x1869,0x1899,0x18c9,0x18f9,0x1929,0x1959,0x1989,0x19b9,0x19e9,0x1a19,0x1a49,";
"    0x1a79,0x1aa9,0x1ad9,0x1b09,0x1b39,0x1b69,0x1b99,0x1bc9,0x1bf9,0x1c29,0x1c59,0x1c89,0x1cb9,0x1ce9,0x1d19,0x1d49,";
"    0x1d79,0x1da9,0x1dd9,0x1e09,0x1e39,0x1e69,0x1e99,0x1ec9,0x1ef9,0x1f29,0x1f59,0,4,0x1f89,0x1fb9,0x1fe9,";
"    0,0,0,0,0,0,0,0,0,0,0,0,0,0,0,0,";
"    0,0,0,0,0,0,0,0,0,0,0,0,0,0x44,0x44,0x44,";
"    0x201a,0x201a,0x201a,0x201a,0x201a,0x201a,0x201a,0x201a,0x201a,0x201a,0x201a,0x201a,0x201a,0x201a,0x201a,0x201a,";
"    0x203a,0x203a,0x203a,0x203a,0x203a,0x203a,0,0,0x2059,0x2089,0x20b9,0x20e9,0x2119,0x2149,0,0,";
"    0x201a,0x201a,0x201a,0x201a,0x201a,0x201a,0x201a,0x201a,0x201a,0x201a,0x201a,0x201a,0x201a,0x201a,0x201a,0x201a,";
"    0x201a,0x201a,0x201a,0x201a,0x201a,0x201a,0x201a,0x201a,0x201a,0x201a,0x201a,0x201a,0x201a,0x201a,0x201a,0x201a,";
"    0,0,0,0,0,0,0,0,0,0,0,0,0,0,0,0,";
"    0,0,4,4,0x64,0,0,0,0,0,0,0,0,0,0,0,";
"    0,0,0,0,0,0,0,0,0,0,0,0,4,4,0,4,";
"    4,4,4,4,4,4,0,0,0,0,0,0,0,0,4,0,";
"    0,4,4,4,4,4,4,4,4,4,0x64,4,0,0,0,4,";
"    0,0,0,0,0,0x44,0,0,0,0,0,0,0,0,0,0,";
"    0,0,0,4,4,4,4,0,0,0,0,0,0,0,0,0,";
"    0,0,0,0,0,0,0,0,0,0,0,4,0,0,0,0,";
"    0,0,0,0,0,0,0,0,0,0,0,0,0,0,0,0,";
"    0,0,0,0,0,0,0,0,0,4,4,0,0,0,0,0,";
"    0,0,0,0,0,0,0,0,0,0,0,0,0,0,0,0,";
"    0,0,0,0,0,0x64,0,0,0,0,0,0,0,0,0,0,";
"    0,0,0,0,0,0,0,0,0,0,0,0,4,4,4,0,";
"    0,0,0,4,4,0,0,0,0,0,0,0,0,0,4,0,";
"    0,0,0,0,0,0x64,0x44,0x64,0,0,0,0,0,0,0,0,";
"    0,0,0,0,0,0,0,0,0,0,0,0,0,0,0,0x44,";
"    0x64,0,0,4,0,0,0,0,0,0,0,0,0,0,0,0,";
"    0,0,0,0,0,0,0,0,0,0,4,0,4,4,4,4,";
"    4,4,4,0,0x64,0,4,0,0,4,4,4,4,4,4,4,";
"    4,0,0,0,0,0,0,4,4,0x44,0x44,0x44,0x44,0x44,0x44,0x44,";
"    0x44,0,0,0x64,0,0,0,0,0,0,0,4,0,0,0,0,";
"    0,0,0,0,0x44,0x44,0x44,0x44,0x44,0x64,0x64,0x64,0x64,0x64,0x64,0x44,";
"    0x44,0x64,4,0x64,0x64,0,0,0,0,0,0,0,0,0,0,0,";
"    0,0,0,0,0,0,0,0,0,0,0,0,0,0,0,0,";
"    0,0,0,0,0x64,0,4,4,4,4,4,0,4,0,0,0,";
"    0,0,4,0,0x60,0,0,0,0,0,0,0,0,0,0,0,";
"    0,0,0,0,0,0,0,0,0,0,0,0,0,0,0,0,";
"    0,0,0,0x44,0x64,0x44,0x44,0x44,0x44,0x44,0x44,0x44,0,0,0,0,";
"    0,0,0,0,0,0,0,0,0,0,4,4,4,4,0,0,";
"    4,4,0x60,0x64,4,4,0,0,0,0,0,0,0,0,0,0,";
"    0,0,0,0,0,0,0,0,0,0,0x64,0,4,4,0,0,";
"    0,4,0,4,4,4,0x60,0x60,0,0,0,0,0,0,0,0,";
"    0,0,0,0,4,4,4,4,4,4,4,4,0,0,4,0x64,";
"    0,0,0,0,0,0,0,0,0,0,0,0,0,0,0,0,";
"    0,0,0,0,0,0,0,0,4,4,4,4,4,4,0,0,";
"    0x2179,0x21a9,0x21d9,0x2209,0x2239,0x2289,0x22d9,0x2309,0x2339,0,0,0,0,0,0,0,";
"    0x236a,0x236a,0x236a,0x236a,0x236a,0x236a,0x236a,0x236a,0x236a,0x236a,0x236a,0x236a,0x236a,0x236a,0x236a,0x236a,";
"    0x236a,0x236a,0x236a,0x236a,0x236a,0x236a,0x236a,0x236a,0x236a,0x236a,0x236a,0,0,0x236a,0x236a,0x236a,";
"    0,0,0,0,0,0,0,0,0,0,0,0,0,0,0,0,";
"    0x44,0x44,0x44,0,0x64,0x64,0x64,0x64,0x64,0x64,0x44,0x44,0x64,0x64,0x64,0x64,";
"    0x44,0,0x64,0x64,0x64,0x64,0x64,0x64,0x64,0,0,0,0,0x64,0,0,";
"    0,0,0,0,0x44,0,0,0,0x44,0x44,0,0,0,0,0,0,";
"    1,1,1,1,1,1,1,1,1,1,1,1,1,1,1,1,";
"    1,1,1,1,1,1,1,1,1,1,1,1,1,1,1,1,";
"    5,5,5,5,5,5,5,5,5,5,5,5,5,5,5,5,";
"    5,5,5,5,5,5,5,5,5,5,5,5,5,5,5,5,";
"    5,5,0x25,5,5,5,5,5,5,5,5,1,1,1,1,1,";
"    1,1,1,1,1,1,1,1,5,0x2389,1,1,1,0x23a9,1,1,";
"    5,5,5,5,0x25,5,5,5,0x25,5,5,5,5,5,5,5,";
"    5,5,5,5,5,5,5,5,5,5,5,5,5,5,5,5,";
"    1,1,1,1,1,1,1,1,1,1,1,1,1,1,0x23c9,1,";
"    1,1,1,1,1,1,0x21,1,1,1,1,5,5,5,5,5,";
"    0x44,0x44,0x44,0x44,0x44,0x44,0x44,0x44,0x44,0x44,0x44,0x44,0x44,0x44,0x44,0x44,";
"    0x44,0x44,0x44,0x44,0x44,0x44,0x64,0x64,0x64,0x64,0,0x44,0x64,0x64,0x44,0x64,";
"    0x44,0x44,0x64,0x44,0x44,0x44,0x44,0x44,0x44,0x44,0x64,0x44,0x44,0x64,0x64,0x64,";
"    0x64,0x44,0x44,0x44,0x44,0x44,0x44,0x44,0x44,0x44,0x44,0x44,0x44,0x44,0x44,0x44,";
"    0x92,0xff91,0x92,0xff91,0x92,0xff91,0x92,0xff91,0x92,0xff91,0x92,0xff91,0x92,0xffb1,0x92,0xff91,";
"    0x92,0xff91,0x92,0xff91,0x92,0xff91,0x92,0xff91,0x92,0xff91,0x92,0xff91,0x92,0xff91,0x92,0xff91,";
"    0x23ea,0x2429,0x92,0xff91,0x92,0xff91,0x92,0xff91,0x92,0xff91,0x92,0xff91,0x92,0xff91,0x92,0xff91,";
"    0x92,0xff91,0x92,0xff91,0x92,0xff91,0x92,0xff91,0x92,0xff91,0x92,0xff91,0x92,0xff91,0x92,0xff91,";
"    0x92,0xff91,0x2469,0x24e9,0x2569,0x25e9,0x2669,0x26e9,1,1,0x271a,1,0x92,0xff91,0x92,0xff91,";
"    0x92,0xff91,0x92,0xff91,0x92,0xff91,0x92,0xffb1,0x92,0xff91,0x92,0xff91,0x92,0xff91,0x92,0xff91,";
"    0x92,0xff91,0x92,0xff91,0x92,0xff91,0x92,0xff91,0x92,0xff91,0x92,0xff91,0x411,0x411,0x411,0x411,";
"    0x411,0x411,0x411,0x411,0xfc12,0xfc12,0xfc12,0xfc12,0xfc12,0xfc12,0xfc12,0xfc12,0x411,0x411,0x411,0x411,";
"    0x411,0x411,0,0,0xfc12,0xfc12,0xfc12,0xfc12,0xfc12,0xfc12,0,0,0x411,0x411,0x411,0x411,";
"    0x411,0x411,0x411,0x411,0xfc12,0xfc12,0xfc12,0xfc12,0xfc12,0xfc12,0xfc12,0xfc12,0x411,0x411,0x411,0x411,";
"    0x411,0x411,0x411,0x411,0xfc12,0xfc12,0xfc12,0xfc12,0xfc12,0xfc12,0xfc12,0xfc12,0x411,0x411,0x411,0x411,";
"    0x411,0x411,0,0,0xfc12,0xfc12,0xfc12,0xfc12,0xfc12,0xfc12,0,0,0x2769,0x411,0x27e9,0x411,";
"    0x2899,0x411,0x2949,0x411,0,0xfc12,0,0xfc12,0,0xfc12,0,0xfc12,0x411,0x411,0x411,0x411,";
"    0x411,0x411,0x411,0x411,0xfc12,0xfc12,0xfc12,0xfc12,0xfc12,0xfc12,0xfc12,0xfc12,0x2511,0x2511,0x2b11,0x2b11,";
"    0x2b11,0x2b11,0x3211,0x3211,0x4011,0x4011,0x3811,0x3811,0x3f11,0x3f11,0,0,0x29f9,0x2a69,0x2ad9,0x2b49,";
"    0x2bb9,0x2c29,0x2c99,0x2d09,0x2d7b,0x2deb,0x2e5b,0x2ecb,0x2f3b,0x2fab,0x301b,0x308b,0x30f9,0x3169,0x31d9,0x3249,";
"    0x32b9,0x3329,0x3399,0x3409,0x347b,0x34eb,0x355b,0x35cb,0x363b,0x36ab,0x371b,0x378b,0x37f9,0x3869,0x38d9,0x3949,";
"    0x39b9,0x3a29,0x3a99,0x3b09,0x3b7b,0x3beb,0x3c5b,0x3ccb,0x3d3b,0x3dab,0x3e1b,0x3e8b,0x411,0x411,0x3ef9,0x3f79,";
"    0x3fe9,0,0x4069,0x40e9,0xfc12,0xfc12,0xdb12,0xdb12,0x419b,4,0x4209,4,4,4,0x4259,0x42d9,";
"    0x4349,0,0x43c9,0x4449,0xd512,0xd512,0xd512,0xd512,0x44fb,4,4,4,0x411,0x411,0x4569,0x4619,";
"    0,0,0x46e9,0x4769,0xfc12,0xfc12,0xce12,0xce12,0,4,4,4,0x411,0x411,0x4819,0x48c9,";
"    0x4999,0x391,0x4a19,0x4a99,0xfc12,0xfc12,0xc812,0xc812,0xfc92,4,4,4,0,0,0x4b49,0x4bc9,";
"    0x4c39,0,0x4cb9,0x4d39,0xc012,0xc012,0xc112,0xc112,0x4deb,4,4,0,0,0,0,0,";
"    0,0,0,0,0,0,0,4,4,4,4,4,0,0,0,0,";
"    0,0,0,0,4,4,0,0,0,0,0,0,4,0,0,4,";
"    0,0,4,4,4,4,4,0,0,0,0,0,0,0,0,0,";
"    0,0,0,0,0,0,0,0,4,4,4,4,4,0,4,4,";
"    4,4,4,4,4,4,4,4,0,0x25,0,0,0,0,0,0,";
"    0,0,0,0,0,0,0,5,0,0,0,0,0,0,0,0,";
"    0,0,0,0,0,0,0,0,5,5,5,5,5,5,5,5,";
"    5,5,5,5,5,0,0,0,0,0,0,0,0,0,0,0,";
"    0,0,0,0,0,0,0,0,0x44,0x44,0x64,0x64,0x44,0x44,0x44,0x44,";
"    0x64,0x64,0x64,0x44,0x44,4,4,4,4,0x44,4,4,4,0x64,0x64,0x44,";
"    0x64,0x44,0x64,0x64,0x64,0x64,0x64,0x64,0x44,0,0,0,0,0,0,0,";
"    0,0,0,0,0,0,0,0,0,0,2,0,0,0,0,2,";
"    0,0,1,2,2,2,1,1,2,2,2,1,0,2,0,0,";
"    0,2,2,2,2,2,0,0,0,0,0,0,2,0,0x4e5a,0,";
"    2,0,0x4e9a,0x4eda,2,2,0,1,2,2,0xe12,2,1,0,0,0,";
"    0,1,0,0,1,1,2,2,0,0,0,0,0,2,1,1,";
"    0x21,0x21,0,0,0,0,0xf211,0,0,0,0,0,0,0,0,0,";
"    0,0,0,0,0,0,0,0,0x812,0x812,0x812,0x812,0x812,0x812,0x812,0x812,";
"    0x812,0x812,0x812,0x812,0x812,0x812,0x812,0x812,0xf811,0xf811,0xf811,0xf811,0xf811,0xf811,0xf811,0xf811,";
"    0xf811,0xf811,0xf811,0xf811,0xf811,0xf811,0xf811,0xf811,0,0,0,0x92,0xff91,0,0,0,";
"    0,0,0,0,0,0,0,0,0,0,0,0,0,0,0,0,";
"    0,0,0,0,0,0,0,0,0,0,0xd12,0xd12,0xd12,0xd12,0xd12,0xd12,";
"    0xd12,0xd12,0xd12,0xd12,0xd12,0xd12,0xd12,0xd12,0xd12,0xd12,0xd12,0xd12,0xf311,0xf311,0xf311,0xf311,";
"    0xf311,0xf311,0xf311,0xf311,0xf311,0xf311,0xf311,0xf311,0xf311,0xf311,0xf311,0xf311,0xf311,0xf311,0,0,";
"    0,0,0,0,0,0,0,0,0,0,0,0,0,0,0,0,";
"    0,0,0,0,0x1812,0x1812,0x1812,0x1812,0x1812,0x1812,0x1812,0x1812,0x1812,0x1812,0x1812,0x1812,";
"    0x1812,0x1812,0x1812,0x1812,0x1812,0x1812,0x1812,0x1812,0x1812,0x1812,0x1812,0x1812,0x1812,0x1812,0x1812,0x1812,";
"    0x1812,0x1812,0x1812,0x1812,0x1812,0x1812,0x1812,0,0xe811,0xe811,0xe811,0xe811,0xe811,0xe811,0xe811,0xe811,";
"    0xe811,0xe811,0xe811,0xe811,0xe811,0xe811,0xe811,0xe811,0xe811,0xe811,0xe811,0xe811,0xe811,0xe811,0xe811,0xe811,";
"    0xe811,0xe811,0xe811,0xe811,0xe811,0xe811,0xe811,0,0x92,0xff91,0x4f1a,0x4f3a,0x4f5a,0x4f79,0x4f99,0x92,";
"    0xff91,0x92,0xff91,0x92,0xff91,0x4fba,0x4fda,0x4ffa,0x501a,1,0x92,0xff91,1,0x92,0xff91,1,";
"    1,1,1,1,0x25,5,0x503a,0x503a,0x92,0xff91,0x92,0xff91,1,0,0,0,";
"    0,0,0,0x92,0xff91,0x92,0xff91,0x44,0x44,0x44,0x92,0xff91,0,0,0,0,";
"    0,0,0,0,0,0,0,0,0x5059,0x5059,0x5059,0x5059,0x5059,0x5059,0x5059,0x5059,";
"    0x5059,0x5059,0x5059,0x5059,0x5059,0x5059,0x5059,0x5059,0x5059,0x5059,0x5059,0x5059,0x5059,0x5059,0x5059,0x5059,";
"    0x5059,0x5059,0x5059,0x5059,0x5059,0x5059,0x5059,0x5059,0x5059,0x5059,0,0x5059,0,0,0,0,";
"    0,0x5059,0,0,0,0,0,0,0,0,0,0,0,0,0,0,";
"    0,0,0,0,0,0,0,4,0,0,0,0,0,0,0,0,";
"    0,0,0,0,0,0,0,0x64,0x44,0x44,0x44,0x44,0x44,0x44,0x44,0x44,";
"    0x44,0x44,0x44,0x44,0x44,0x44,0x44,0x44,0x44,0x44,0x44,0x44,0x44,0x44,0x44,0x44,";
"    0x44,0x44,0x44,0x44,0x44,0x44,0x44,0x44,0,0,0,0,0,0,0,0,";
"    0,0,0x64,0x64,0x64,0x64,0x60,0x60,0,4,4,4,4,4,0,0,";
"    0,0,0,4,0,0,0,0,0,0,0,0,0,0,0,0,";
"    0,0,0,0,0,0,0,0,0,0,0,0,0,0x64,0x64,4,";
"    4,4,4,0,0,0,0,0,0,0,0,0,0,0,0,0,";
"    0,0,0,0,0,0,0,0,0,0,0,0,0,0,0,0,";
"    4,4,4,0,0,0,0,0,0,0,0,0,0,0,0,0,";
"    0,0,0,0,0,0,0,0,0,4,0,0,0,0,0,0,";
"    0,0,0,0,0,0,0,0,4,0,0,0,0,0,0,0,";
"    0,0,0,0,0,0,0,0,0,0,0,0,0x92,0xff91,0x92,0xff91,";
"    0x92,0xff91,0x92,0xff91,0x92,0xff91,0x507a,0x50b9,0x92,0xff91,0x92,0xff91,0x92,0xff91,0x92,0xff91,";
"    0x92,0xff91,0x92,0xff91,0x92,0xff91,0x92,0xff91,0x92,0xff91,0x92,0xff91,0x92,0xff91,0,0x44,";
"    4,4,4,0,0x44,0x44,0x44,0x44,0x44,0x44,0x44,0x44,0x44,0x44,0,4,";
"    0x92,0xff91,0x92,0xff91,0x92,0xff91,0x92,0xff91,0x92,0xff91,0x92,0xff91,0x92,0xff91,0x92,0xff91,";
"    0x92,0xff91,0x92,0xff91,0x92,0xff91,0x92,0xff91,0x92,0xff91,0x92,0xff91,5,5,0x44,0x44,";
"    0,0,0,0,0,0,0,0,0,0,0,0,0,0,0,0,";
"    0x44,0x44,0,0,0,0,0,0,0,0,0,0,0,0,0,0,";
"    4,4,4,4,4,4,4,4,4,4,4,4,4,4,4,4,";
"    4,4,4,4,4,4,4,4,4,4,4,4,4,4,4,4,";
"    4,4,0x92,0xff91,0x92,0xff91,0x92,0xff91,0x92,0xff91,0x92,0xff91,0x92,0xff91,0x92,0xff91,";
"    1,1,0x92,0xff91,0x92,0xff91,0x92,0xff91,0x92,0xff91,0x92,0xff91,0x92,0xff91,0x92,0xff91,";
"    0x92,0xff91,0x92,0xff91,5,1,1,1,1,1,1,1,1,0x92,0xff91,0x92,";
"    0xff91,0x50fa,0x92,0xff91,0x92,0xff91,0x92,0xff91,0x92,0xff91,0x92,0xff91,4,4,4,0x92,";
"    0xff91,0x511a,1,0,0x92,0xff91,0x92,0xff91,0x1811,1,0x92,0xff91,0x92,0xff91,0x92,0xff91,";
"    0x92,0xff91,0x92,0xff91,0x92,0xff91,0x513a,0x515a,0x517a,0x519a,0x513a,1,0x51ba,0x51da,0x51fa,0x521a,";
"    0x92,0xff91,0x92,0xff91,0x92,0xff91,0x92,0xff91,0x92,0xff91,0x92,0xff91,0,0,0x92,0xff91,";
"    0xe812,0x523a,0x525a,0x92,0xff91,0x92,0xff91,0,0,0,0,0,0,0,0,0,";
"    0,0,0,0,0,0,0,0,0,0,0,0,0,0x92,0xff91,0,";
"    5,5,1,0,0,0,0,0,0,0,4,0,0,0,0x64,0,";
"    0,0,0,4,0,0,0,0,0,0,0,0,0,0,0,0,";
"    0,0,0,0,0,0,0,0,0,4,4,0,0,0,0,0,";
"    0x64,0,0,0,0,0,0,0,0,0,0,0,0,0,0,0,";
"    0,0,0,0,0x64,4,0,0,0,0,0,0,0,0,0,0,";
"    0,0,0,0,0,0,0,0,0,0,0,0,0,0,0,0,";
"    0x44,0x44,0x44,0x44,0x44,0x44,0x44,0x44,0x44,0x44,0x44,0x44,0x44,0x44,0x44,0x44,";
"    0x44,0x44,0,0,0,0,0,0,0,0,0,0,0,0,0,4,";
"    0,0,0,0,0,0,4,4,4,4,4,0x64,0x64,0x64,0,0,";
"    0,0,0,0,0,0,0,0,0,0,0,0,0,0,0,0,";
"    0,0,0,4,4,4,4,4,4,4,4,4,4,4,0,0x60,";
"    0,0,0,0,0,0,0,0,0,0,0,0,0,0,0,0,";
"    0,0,0,0x64,0,0,4,4,4,4,0,0,4,4,0,0,";
"    0x60,0,0,0,0,0,0,0,0,0,0,0,0,0,0,4,";
"    0,0,0,0,0,0,0,0,0,0,0,0,0,0,0,0,";
"    0,4,4,4,4,4,4,0,0,4,4,0,0,4,4,0,";
"    0,0,0,0,0,0,0,0,0,0,0,4,0,0,0,0,";
"    0,0,0,0,4,0,0,0,0,0,0,0,0,0,0,0,";
"    0,0,0,0,0,0,0,0,4,0,0,0,0,0,0,0,";
"    0,0,0,0,4,0,0,0,0,0,0,0,0,0,0,0,";
"    0,0,0,0,0,0,0,0,0x44,0,0x44,0x44,0x64,0,0,0x44,";
"    0x44,0,0,0,0,0,0x44,0x44,0,0x44,0,0,0,0,0,0,";
"    0,0,0,0,0,0,0,0,0,0,0,0,0,0,0,0,";
"    0,0,0,0,0,4,0,0,0,0,0,0,0,0,0,0,";
"    0,0,0,0,4,4,0,0,0,0,0,4,4,0,0x64,0,";
"    0,0,0,0,0,0,0,0,0,0,0,0,0,0,0,0,";
"    1,1,1,1,1,1,1,1,1,1,1,1,1,1,1,1,";
"    1,1,1,0x5279,1,1,1,1,1,1,1,4,5,5,5,5,";
"    1,1,1,1,1,1,1,1,1,4,4,4,0,0,0,0,";
"    0x5299,0x52c9,0x52f9,0x5329,0x5359,0x5389,0x53b9,0x53e9,0x5419,0x5449,0x5479,0x54a9,0x54d9,0x5509,0x5539,0x5569,";
"    0x5b99,0x5bc9,0x5bf9,0x5c29,0x5c59,0x5c89,0x5cb9,0x5ce9,0x5d19,0x5d49,0x5d79,0x5da9,0x5dd9,0x5e09,0x5e39,0x5e69,";
"    0x5e99,0x5ec9,0x5ef9,0x5f29,0x5f59,0x5f89,0x5fb9,0x5fe9,0x6019,0x6049,0x6079,0x60a9,0x60d9,0x6109,0x6139,0x6169,";
"    0x5599,0x55c9,0x55f9,0x5629,0x5659,0x5689,0x56b9,0x56e9,0x5719,0x5749,0x5779,0x57a9,0x57d9,0x5809,0x5839,0x5869,";
"    0x5899,0x58c9,0x58f9,0x5929,0x5959,0x5989,0x59b9,0x59e9,0x5a19,0x5a49,0x5a79,0x5aa9,0x5ad9,0x5b09,0x5b39,0x5b69,";
"    0,0,0,0,0,4,0,0,4,0,0,0,0,0x64,0,0,";
"    0,0,0,0,0,0,0,0,0,0,0,0,0,0,0,0,";
"    0x6199,0x6219,0x6299,0x6319,0x63c9,0x6479,0x6519,0,0,0,0,0,0,0,0,0,";
"    0,0,0,0x65b9,0x6639,0x66b9,0x6739,0x67b9,0,0,0,0,0,0,0x64,0,";
"    0,0,0,0,0,0,0,0,0,0,0,0,0,0,0,0,";
"    0,0,4,4,4,4,4,4,4,4,4,4,4,4,4,4,";
"    4,4,4,4,0,0,0,4,0,0,0,0,0,0,0,0,";
"    0,0,0,0,0x44,0x44,0x44,0x44,0x44,0x44,0x44,0x64,0x64,0x64,0x64,0x64,";
"    0x64,0x64,0x44,0x44,0,0,0,0,0,0,0,0,0,0,0,0,";
"    0,0,0,0,0,0,4,0,0,4,0,0,0,0,0,0,";
"    0,0,0,0,0,0x1012,0x1012,0x1012,0x1012,0x1012,0x1012,0x1012,0x1012,0x1012,0x1012,0x1012,";
"    0x1012,0x1012,0x1012,0x1012,0x1012,0x1012,0x1012,0x1012,0x1012,0x1012,0x1012,0x1012,0x1012,0x1012,0x1012,0,";
"    0,0,4,0,4,0xf011,0xf011,0xf011,0xf011,0xf011,0xf011,0xf011,0xf011,0xf011,0xf011,0xf011,";
"    0xf011,0xf011,0xf011,0xf011,0xf011,0xf011,0xf011,0xf011,0xf011,0xf011,0xf011,0xf011,0xf011,0xf011,0xf011,0,";
"    0,0,0,0,0,0,0,0,0,0,0,0,0,0,0,0,";
"    4,0,0,0,0,0,0,0,0,0,0,0,0,0,0,0,";
"    0,0,0,4,0,0,0,0,0,0,0,0,0,0,0,0,";
"    0,0,0,0,0,0,0,0,0,4,4,4,0,0,0,0,";
"    0,0,0,0,0,0,0,0,0,0,0,0,0,0,0,0,";
"    0,0,0,0,0,0,0,0,0,0x64,0,0,0,0,0,0,";
"    0,0,0,0,0,0,0,0,0,0,0,0,0,0,0,0,";
"    0,0,0x44,0x44,0x44,0x44,0x44,0,0,0,0,0,0x1412,0x1412,0x1412,0x1412,";
"    0x1412,0x1412,0x1412,0x1412,0x1412,0x1412,0x1412,0x1412,0x1412,0x1412,0x1412,0x1412,0x1412,0x1412,0x1412,0x1412,";
"    0x1412,0x1412,0x1412,0x1412,0x1412,0x1412,0x1412,0x1412,0x1412,0x1412,0x1412,0x1412,0xec11,0xec11,0xec11,0xec11,";
"    0xec11,0xec11,0xec11,0xec11,0xec11,0xec11,0xec11,0xec11,0xec11,0xec11,0xec11,0xec11,0xec11,0xec11,0xec11,0xec11,";
"    0xec11,0xec11,0xec11,0xec11,0,0,0,0,0,0,0,0,0,0,0,0,";
"    0,0,0,0,0x1412,0x1412,0x1412,0x1412,0x1412,0x1412,0x1412,0x1412,0x1412,0x1412,0x1412,0x1412,";
"    0x1412,0x1412,0x1412,0x1412,0x1412,0x1412,0x1412,0x1412,0,0,0,0,0xec11,0xec11,0xec11,0xec11,";
"    0xec11,0xec11,0xec11,0xec11,0xec11,0xec11,0xec11,0xec11,0xec11,0xec11,0xec11,0xec11,0xec11,0xec11,0xec11,0xec11,";
"    0xec11,0xec11,0xec11,0xec11,0xec11,0xec11,0xec11,0xec11,0,0,0,0,0,4,4,4,";
"    0,4,4,0,0,0,0,0,4,0x64,4,0x44,0,0,0,0,";
"    0,0,0,0,0,0,0,0,0,0,0,0,0,0,0,0,";
"    0,0,0,0,0x44,0x64,0x64,0,0,0,0,0x64,0,0,0,0,";
"    0,0x44,0x64,0,0,0,0,0,0,0,0,0,0,0,0,0,";
"    0,0,0,0,0,0,0,0,0,0,0,0,0x2012,0x2012,0x2012,0x2012,";
"    0x2012,0x2012,0x2012,0x2012,0x2012,0x2012,0x2012,0x2012,0x2012,0x2012,0x2012,0x2012,0x2012,0x2012,0x2012,0x2012,";
"    0x2012,0x2012,0x2012,0x2012,0x2012,0x2012,0x2012,0x2012,0x2012,0x2012,0x2012,0x2012,0x2012,0x2012,0x2012,0,";
"    0,0,0,0,0,0,0,0,0,0,0,0,0xe011,0xe011,0xe011,0xe011,";
"    0xe011,0xe011,0xe011,0xe011,0xe011,0xe011,0xe011,0xe011,0xe011,0xe011,0xe011,0xe011,0xe011,0xe011,0xe011,0xe011,";
"    0xe011,0xe011,0xe011,0xe011,0xe011,0xe011,0xe011,0xe011,0xe011,0xe011,0xe011,0xe011,0xe011,0xe011,0xe011,0,";
"    0,0,0,0,0,0,0,0,0,0,0,0,0x44,0x44,0x44,0x44,";
"    0,0,0,0,0,0,0,0,0,0,0,0,0,0,0,0,";
"    0,0,0,0,0,0,0,0,0,0,0,0x44,0x44,0,0,0,";
"    0,0,0,0,0,0,0,0,0,0,0,0,0,0,0,0,";
"    0,0,0x64,0x64,0x44,0x44,0x44,0x64,0x44,0x64,0x64,0x64,0x64,0,0,0,";
"    0,0,0,0,0,0,0,0,0,0,0,0,0,0,0,0,";
"    0,0,0,0,0,0,0,0,4,4,4,4,4,4,4,4,";
"    4,4,0x64,0,0,0,0,0,0,0,0,0,0,0,0,0,";
"    0,0,0,0,0,0,0,0,0,0,0,0,0,0,0,4,";
"    4,4,4,0,0,0x64,0x64,0,0,4,0,0,0x44,0x44,0x44,0,";
"    0,0,0,0,0,0,0,0,0,0,0,0,0,0,0,0,";
"    0,0,0,0,0,0,0,0,0,0,0,0,0,0,0,4,";
"    4,4,4,4,0,4,4,4,4,4,4,0x64,0x64,0,0,0,";
"    0,0,0,0,0,0,0,0,0,0,0,0,0,0,0,0,";
"    0,0,0,0x64,0,0,0,0,0,0,0,0,0,0,0,0,";
"    0,0,0,0,0,0,0,0,0,0,4,4,4,4,4,4,";
"    4,4,4,0,0x60,0,0,0,0,0,0,0,0,4,0x64,4,";
"    4,0,0,4,0,0,0,0,0,0,0,0,0,0,0,0,";
"    0,0,0,0,0,0,0,4,4,4,0,0,4,0x60,0x64,4,";
"    0,0,0,0,0,0,4,0,0,0,0,4,4,4,4,4,";
"    4,0x64,0x64,0,0,0,0,0,0,0,0,0,0,0,0,0,";
"    0,0,0,0,0,0,0,0,4,0,0,0,0,0,0,0,";
"    0,0,0,0,0,0x60,0,0,0,0,0,0,0,0,0,0,";
"    0,0,0,0,0,0,0,0,0,0,0x44,0x44,0x44,0x44,0x44,0x44,";
"    0x44,0,0,0,0x44,0x44,0x44,0x44,0x44,0,0,0,0,0,0,0,";
"    0,0,0,0,0,0,0x64,4,4,0,0x64,0,0,0,0,0,";
"    0,0,0,0,0,0,0,0,0,0,0,0,0,0,0,0,";
"    0,0,0x44,0,0,0,0,0,0,0,0,0,0,0,0,0,";
"    0,0,0,0,0,0,0,4,4,4,4,4,4,0,4,0,";
"    0,0,0,4,4,0,0x64,0x64,0,0,0,0,0,0,0,0,";
"    0,0,0,0,0,0,0,0,0,0,0,0,0,0,0,0,";
"    0,0,0,0,0,0,4,4,4,4,0,0,0,0,0,0,";
"    4,4,0,0x64,0x64,0,0,0,0,0,0,0,0,0,0,0,";
"    0,0,0,0,0,0,0,0,0,0,0,0,0,0,0,0,";
"    4,4,0,0,0,0,0,0,0,0,0,0,0,0,0,0,";
"    0,0,0,0,0,0,0,4,4,4,4,4,4,4,4,0,";
"    0,4,0,0x64,0,0,0,0,0,0,0,0,0,0,0,4,";
"    0,4,0,0,4,4,4,4,4,4,0x60,0x64,0,0,0,0,";
"    0,0,0,0,0,0,0,0,0,0,0,0,0,0,0,0,";
"    0,0,0,0,0,0,0,0,0,4,4,4,0,0,4,4,";
"    4,4,0,4,4,4,4,0x64,0,0,0,0,0,0,0,0,";
"    0,0,0,0,0,0,0,0,0,0,0,0,0,0,0,4,";
"    4,4,4,4,4,4,4,4,0,0x64,0x64,0,0,0,0,0,";
"    0x1012,0x1012,0x1012,0x1012,0x1012,0x1012,0x1012,0x1012,0x1012,0x1012,0x1012,0x1012,0x1012,0x1012,0x1012,0x1012,";
"    0x1012,0x1012,0x1012,0x1012,0x1012,0x1012,0x1012,0x1012,0x1012,0x1012,0x1012,0x1012,0x1012,0x1012,0x1012,0x1012,";
"    0xf011,0xf011,0xf011,0xf011,0xf011,0xf011,0xf011,0xf011,0xf011,0xf011,0xf011,0xf011,0xf011,0xf011,0xf011,0xf011,";
"    0xf011,0xf011,0xf011,0xf011,0xf011,0xf011,0xf011,0xf011,0xf011,0xf011,0xf011,0xf011,0xf011,0xf011,0xf011,0xf011,";
"    0,0,0,0,0,0,0,0,0,0,0,0,0,0,0,0,";
"    0,0,0,0,0,0,0,0,0,0,0,4,4,0x60,0x64,0,";
"    0,0,0,0x64,0,0,0,0,0,0,0,0,0,0,0,0,";
"    0,0,0,0,0,0,0,0,0,0,0,0,0,0,0,0,";
"    4,4,4,4,0,0,4,4,0,0,0,0,0,4,4,4,";
"    4,4,4,4,4,4,4,0,0,0,0,0,0,0,0,0,";
"    0,0,0,0,0,0,0,0,0,0,0,0,0,0,0,4,";
"    0x64,4,4,4,4,0,0,4,4,4,4,0,0,0,0,0,";
"    0,0,0,0x64,0,0,0,0,0,0,0,0,0,4,4,4,";
"    4,4,4,0,0,4,4,4,0,0,0,0,0,0,0,0,";
"    0,0,4,4,4,4,4,4,4,4,4,4,4,4,4,0,";
"    4,0x64,0,0,0,0,0,0,0,0,0,0,0,0,0,0,";
"    0,0,0,0,4,4,4,4,4,4,4,0,4,4,4,4,";
"    4,4,0,0x64,4,4,4,4,4,4,4,4,0,0,4,4,";
"    4,4,4,4,4,0,4,4,0,4,4,0,0,0,0,0,";
"    0,0,0,0,0,0,0,0,0,0,0,0,0,4,4,4,";
"    4,4,4,0,0,0,4,0,4,4,0,4,4,4,0x64,4,";
"    0x64,0x64,0,4,0,0,0,0,0,0,0,0,0,0,0,0,";
"    0,0,0,0,0,0,0,0,0,0,0,0,4,4,0,0,";
"    0,4,0,0x64,0,0,0,0,0,0,0,0,0,0,0,0,";
"    0,0,0,0,0,0,0,4,4,0,0,0,0,0,0,0,";
"    0,0,0,0,0,0,0,0,0,0,0,0,4,4,4,4,";
"    4,4,4,4,4,0,0,0,0,0,0,0,0,0,0,0,";
"    0,0,0,0,0,0,0,0,0x64,0x64,0x64,0x64,0x64,0,0,0,";
"    0,0,0,0,0,0,0,0,0,0,0,0,0,0,0,0,";
"    0x44,0x44,0x44,0x44,0x44,0x44,0x44,0,0,0,0,0,0,0,0,0,";
"    0,0,0,0,0,0,0,4,4,4,4,4,4,4,4,4,";
"    4,4,4,4,4,4,4,4,4,4,0,4,4,0,0,0,";
"    0,0,0,0,0,0,0,0,0x60,0x60,0,0,0,0,0,0,";
"    0,0,0,0,0,0,0,0,0,0,0,0,0,0,0,0,";
"    0,0,0,0,0,0,0,0,0,4,0x64,0,0,0,0,0,";
"    0,0x60,0x60,0x64,0x64,0x64,0,0,0,0x60,0x60,0x60,0x60,0x60,0x60,4,";
"    4,4,4,4,4,4,4,0x64,0x64,0x64,0x64,0x64,0x64,0x64,0x64,0,";
"    0,0x44,0x44,0x44,0x44,0x44,0x64,0x64,0,0,0,0,0,0,0,0,";
"    0,0,0,0,0,0,0,0,0,0,0,0,0,0,0x44,0x44,";
"    0x44,0x44,0,0,0,0,0,0,0,0,0,0,0,0,0,0,";
"    0,0,0,0,0,0,0x44,0x44,0x44,0,0,0,0,0,0,0,";
"    0,0,0,0,0,0,0,0,0,0,0,0,0,0,0,0,";
"    0,0,0,0,2,2,2,2,2,2,2,2,2,2,2,2,";
"    2,2,2,2,2,2,2,2,2,2,2,2,2,2,1,1,";
"    1,1,1,1,1,1,0x21,0x21,1,1,1,1,1,1,1,1,";
"    1,1,1,1,1,1,1,1,2,2,2,2,2,2,2,2,";
"    2,2,2,2,2,2,1,1,1,1,1,1,1,0,0x21,0x21,";
"    1,1,1,1,1,1,1,1,2,2,2,2,2,2,2,2,";
"    2,2,2,2,2,2,2,2,2,2,2,2,2,2,2,2,";
"    2,2,1,1,1,1,1,1,1,1,0x21,0x21,1,1,1,1,";
"    1,1,1,1,1,1,1,1,1,1,1,1,2,0,2,2,";
"    0,0,2,0,0,2,2,0,0,2,2,2,2,0,2,2,";
"    2,2,2,2,2,2,1,1,1,1,0,1,0,1,0x21,0x21,";
"    1,1,1,1,0,1,1,1,1,1,1,1,1,1,1,1,";
"    2,2,2,2,2,2,2,2,2,2,2,2,2,2,2,2,";
"    1,1,1,1,2,2,0,2,2,2,2,0,0,2,2,2,";
"    2,2,2,2,2,0,2,2,2,2,2,2,2,0,1,1,";
"    1,1,1,1,1,1,0x21,0x21,1,1,1,1,1,1,1,1,";
"    1,1,1,1,1,1,1,1,2,2,0,2,2,2,2,0,";
"    2,2,2,2,2,0,2,0,0,0,2,2,2,2,2,2,";
"    2,0,1,1,1,1,1,1,1,1,0x21,0x21,1,1,1,1,";
"    1,1,1,1,1,1,1,1,2,2,2,2,2,2,2,2,";
"    2,2,2,2,2,2,2,2,2,2,2,2,1,1,1,1,";
"    1,1,1,1,1,1,1,1,1,1,1,1,2,2,2,2,";
"    2,2,2,2,2,2,2,2,2,2,2,2,1,1,1,1,";
"    1,1,0,0,2,2,2,2,2,2,2,2,2,2,2,2,";
"    2,2,2,2,2,2,2,2,2,2,2,2,2,0,1,1,";
"    1,1,1,1,1,1,1,1,1,1,1,1,1,1,1,1,";
"    1,1,1,1,1,1,1,0,1,1,1,1,1,1,2,2,";
"    2,2,2,2,2,2,2,2,2,2,2,2,2,2,2,2,";
"    2,2,2,2,2,2,2,0,1,1,1,1,1,1,1,1,";
"    1,1,1,1,1,1,1,1,1,1,1,1,1,0,1,1,";
"    1,1,1,1,2,2,2,2,2,2,2,2,2,2,2,2,";
"    2,2,2,2,1,1,1,0,1,1,1,1,1,1,2,1,";
"    0,0,0,0,0,0,0,0,0,0,0,0,0,0,0,0,";
"    0,0,0,0,4,4,4,4,4,4,4,4,4,4,4,4,";
"    4,4,4,4,4,4,4,4,4,4,4,0,0,0,0,4,";
"    4,4,4,4,4,4,4,4,4,4,4,4,4,0,0,0,";
"    0,0,0,0,0,4,0,0,0,0,0,0,0,0,0,0,";
"    4,0,0,0,0,0,0,0,0,0,0,0,0,0,0,0,";
"    0,0,0,0,0,0,0,4,4,4,4,4,0,4,4,4,";
"    4,4,4,4,4,4,4,4,4,4,4,4,0,0,0,0,";
"    0,0,0,0,0,0,0,0,0,0,0,0,0x44,0x44,0x44,0x44,";
"    0x44,0x44,0x44,0,0x44,0x44,0x44,0x44,0x44,0x44,0x44,0x44,0x44,0x44,0x44,0x44,";
"    0x44,0x44,0x44,0x44,0x44,0,0,0x44,0x44,0x44,0x44,0x44,0x44,0x44,0,0x44,";
"    0x44,0,0x44,0x44,0x44,0x44,0x44,0,0,0,0,0,0,0,0,0,";
"    0,0,0,0,0,0,0,0,0,0,0,0,0x44,0x44,0x44,0x44,";
"    0x44,0x44,0x44,4,4,4,4,4,4,4,0,0,0,0,0,0,";
"    0,0,0,0,0,0,0,0,0,0,0,0,0x64,0x64,0x64,0x64,";
"    0x64,0x64,0x64,0,0,0,0,0,0,0,0,0,0x1112,0x1112,0x1112,0x1112,";
"    0x1112,0x1112,0x1112,0x1112,0x1112,0x1112,0x1112,0x1112,0x1112,0x1112,0x1112,0x1112,0x1112,0x1112,0x1112,0x1112,";
"    0x1112,0x1112,0x1112,0x1112,0x1112,0x1112,0x1112,0x1112,0x1112,0x1112,0x1112,0x1112,0x1112,0x1112,0xef11,0xef11,";
"    0xef11,0xef11,0xef11,0xef11,0xef11,0xef11,0xef11,0xef11,0xef11,0xef11,0xef11,0xef11,0xef11,0xef11,0xef11,0xef11,";
"    0xef11,0xef11,0xef11,0xef11,0xef11,0xef11,0xef11,0xef11,0xef11,0xef11,0xef11,0xef11,0x44,0x44,0x44,0x44,";
"    0x44,0x44,0x64,4,0,0,0,0,0,0,0,0,0,0,0,0,";
"    0,0,0,0,0,0,0,0,2,2,2,2,2,2,2,2,";
"    2,2,0,0,0,0,0,0,2,2,2,2,2,2,2,2,";
"    2,2,2,2,2,2,2,2,2,2,0,0,0,0,0,0,";
"    0,0,0,0,0,0,0,0,0,0,0,0,0,0,0,0,";
"    4,4,4,4,4,4,4,4,4,4,4,4,4,4,4,4,";
"    0,0,0,0,0,0,0,0,0,0,0,0,0,0,0,0,";
"    0,0,0,0";
"]";
"";
"ucase_props_exceptions = [";
"    0xc850,0x20,2,0x130,0x131,0x4810,0x20,0x841,0x6b,1,0x212a,0x841,0x73,1,0x17f,0x5c50,";
"    0x20,2,0x130,0x131,0x844,0x4b,1,0x212a,0x844,0x53,1,0x17f,0x806,0x3bc,0x39c,0x841,";
"    0xe5,1,0x212b,0x8c0,1,0x2220,0x73,0x73,0x53,0x53,0x53,0x73,0x1e9e,0x844,0xc5,1,";
"    0x212b,0x4810,1,0xce50,0xc7,2,0x49,0x131,0x844,0x49,2,0x69,0x130,0x880,0x2220,0x2bc,";
"    0x6e,0x2bc,0x4e,0x2bc,0x4e,0x806,0x73,0x53,0x809,0x1c6,0x1c5,0x80d,0x1c6,0x1c4,0x1c5,0x80c,";
"    0x1c4,0x1c5,0x809,0x1c9,0x1c8,0x80d,0x1c9,0x1c7,0x1c8,0x80c,0x1c7,0x1c8,0x809,0x1cc,0x1cb,0x80d,";
"    0x1cc,0x1ca,0x1cb,0x80c,0x1ca,0x1cb,0x880,0x2220,0x6a,0x30c,0x4a,0x30c,0x4a,0x30c,0x809,0x1f3,";
"    0x1f2,0x80d,0x1f3,0x1f1,0x1f2,0x80c,0x1f1,0x1f2,0x810,0x2a2b,0x810,0x2a28,0x810,0x2a3f,0x810,0x2a1f,";
"    0x810,0x2a1c,0x810,0x2a1e,0x810,0xa54f,0x810,0xa54b,0x810,0xa528,0x810,0xa544,0x810,0x29f7,0x810,0xa541,";
"    0x810,0x29fd,0x810,0x29e7,0x810,0xa543,0x810,0xa52a,0x1810,0xa515,0x810,0xa512,0x6800,0x3846,0x3b9,0x399,";
"    1,0x1fbe,0x8c0,1,0x3330,0x3b9,0x308,0x301,0x399,0x308,0x301,0x399,0x308,0x301,0x1fd3,0x841,";
"    0x3b2,1,0x3d0,0x841,0x3b5,1,0x3f5,0x841,0x3b8,2,0x3d1,0x3f4,0x841,0x3b9,2,0x345,";
"    0x1fbe,0x841,0x3ba,1,0x3f0,0x841,0x3bc,1,0xb5,0x841,0x3c0,1,0x3d6,0x841,0x3c1,1,";
"    0x3f1,0x4850,0x20,1,0x3c2,0x841,0x3c6,1,0x3d5,0x841,0x3c9,1,0x2126,0x8c0,1,0x3330,";
"    0x3c5,0x308,0x301,0x3a5,0x308,0x301,0x3a5,0x308,0x301,0x1fe3,0x844,0x392,1,0x3d0,0x844,0x395,";
"    1,0x3f5,0x844,0x398,2,0x3d1,0x3f4,0x844,0x399,2,0x345,0x1fbe,0x844,0x39a,1,0x3f0,";
"    0x844,0x39c,1,0xb5,0x844,0x3a0,1,0x3d6,0x844,0x3a1,1,0x3f1,0x806,0x3c3,0x3a3,0x844,";
"    0x3a3,1,0x3c2,0x844,0x3a6,1,0x3d5,0x844,0x3a9,1,0x2126,0x806,0x3b2,0x392,0x846,0x3b8,";
"    0x398,1,0x3f4,0x806,0x3c6,0x3a6,0x806,0x3c0,0x3a0,0x806,0x3ba,0x39a,0x806,0x3c1,0x3a1,0x841,";
"    0x3b8,2,0x398,0x3d1,0x806,0x3b5,0x395,0x841,0x432,1,0x1c80,0x841,0x434,1,0x1c81,0x841,";
"    0x43e,1,0x1c82,0x841,0x441,1,0x1c83,0x841,0x442,2,0x1c84,0x1c85,0x841,0x44a,1,0x1c86,";
"    0x844,0x412,1,0x1c80,0x844,0x414,1,0x1c81,0x844,0x41e,1,0x1c82,0x844,0x421,1,0x1c83,";
"    0x844,0x422,2,0x1c84,0x1c85,0x844,0x42a,1,0x1c86,0x841,0x463,1,0x1c87,0x844,0x462,1,";
"    0x1c87,0x4880,0x20,0x565,0x582,0x810,0x1c60,0x80c,0x1c90,0x10d0,0x80c,0x1c91,0x10d1,0x80c,0x1c92,0x10d2,";
"    0x80c,0x1c93,0x10d3,0x80c,0x1c94,0x10d4,0x80c,0x1c95,0x10d5,0x80c,0x1c96,0x10d6,0x80c,0x1c97,0x10d7,0x80c,";
"    0x1c98,0x10d8,0x80c,0x1c99,0x10d9,0x80c,0x1c9a,0x10da,0x80c,0x1c9b,0x10db,0x80c,0x1c9c,0x10dc,0x80c,0x1c9d,";
"    0x10dd,0x80c,0x1c9e,0x10de,0x80c,0x1c9f,0x10df,0x80c,0x1ca0,0x10e0,0x80c,0x1ca1,0x10e1,0x80c,0x1ca2,0x10e2,";
"    0x80c,0x1ca3,0x10e3,0x80c,0x1ca4,0x10e4,0x80c,0x1ca5,0x10e5,0x80c,0x1ca6,0x10e6,0x80c,0x1ca7,0x10e7,0x80c,";
"    0x1ca8,0x10e8,0x80c,0x1ca9,0x10e9,0x80c,0x1caa,0x10ea,0x80c,0x1cab,0x10eb,0x80c,0x1cac,0x10ec,0x80c,0x1cad,";
"    0x10ed,0x80c,0x1cae,0x10ee,0x80c,0x1caf,0x10ef,0x80c,0x1cb0,0x10f0,0x80c,0x1cb1,0x10f1,0x80c,0x1cb2,0x10f2,";
"    0x80c,0x1cb3,0x10f3,0x80c,0x1cb4,0x10f4,0x80c,0x1cb5,0x10f5,0x80c,0x1cb6,0x10f6,0x80c,0x1cb7,0x10f7,0x80c,";
"    0x1cb8,0x10f8,0x80c,0x1cb9,0x10f9,0x80c,0x1cba,0x10fa,0x80c,0x1cbd,0x10fd,0x80c,0x1cbe,0x10fe,0x80c,0x1cbf,";
"    0x10ff,0xa10,0x97d0,0xa10,8,0x806,0x13f0,0x13f0,0x806,0x13f1,0x13f1,0x806,0x13f2,0x13f2,0x806,0x13f3,";
"    0x13f3,0x806,0x13f4,0x13f4,0x806,0x13f5,0x13f5,0x806,0x432,0x412,0x806,0x434,0x414,0x806,0x43e,0x41e,";
"    0x806,0x441,0x421,0x846,0x442,0x422,1,0x1c85,0x846,0x442,0x422,1,0x1c84,0x806,0x44a,0x42a,";
"    0x806,0x463,0x462,0x806,0xa64b,0xa64a,0xc10,0xbc0,0x810,0x8a04,0x810,0xee6,0x810,0x8a38,0x841,0x1e61,";
"    1,0x1e9b,0x844,0x1e60,1,0x1e9b,0x880,0x2220,0x68,0x331,0x48,0x331,0x48,0x331,0x880,0x2220,";
"    0x74,0x308,0x54,0x308,0x54,0x308,0x880,0x2220,0x77,0x30a,0x57,0x30a,0x57,0x30a,0x880,0x2220,";
"    0x79,0x30a,0x59,0x30a,0x59,0x30a,0x880,0x2220,0x61,0x2be,0x41,0x2be,0x41,0x2be,0x806,0x1e61,";
"    0x1e60,0xc90,0x1dbf,0x20,0x73,0x73,0x880,0x2220,0x3c5,0x313,0x3a5,0x313,0x3a5,0x313,0x880,0x3330,";
"    0x3c5,0x313,0x300,0x3a5,0x313,0x300,0x3a5,0x313,0x300,0x880,0x3330,0x3c5,0x313,0x301,0x3a5,0x313,";
"    0x301,0x3a5,0x313,0x301,0x880,0x3330,0x3c5,0x313,0x342,0x3a5,0x313,0x342,0x3a5,0x313,0x342,0x890,";
"    8,0x220,0x1f00,0x3b9,0x1f08,0x399,0x890,8,0x220,0x1f01,0x3b9,0x1f09,0x399,0x890,8,0x220,";
"    0x1f02,0x3b9,0x1f0a,0x399,0x890,8,0x220,0x1f03,0x3b9,0x1f0b,0x399,0x890,8,0x220,0x1f04,0x3b9,";
"    0x1f0c,0x399,0x890,8,0x220,0x1f05,0x3b9,0x1f0d,0x399,0x890,8,0x220,0x1f06,0x3b9,0x1f0e,0x399,";
"    0x890,8,0x220,0x1f07,0x3b9,0x1f0f,0x399,0xc90,8,0x220,0x1f00,0x3b9,0x1f08,0x399,0xc90,8,";
"    0x220,0x1f01,0x3b9,0x1f09,0x399,0xc90,8,0x220,0x1f02,0x3b9,0x1f0a,0x399,0xc90,8,0x220,0x1f03,";
"    0x3b9,0x1f0b,0x399,0xc90,8,0x220,0x1f04,0x3b9,0x1f0c,0x399,0xc90,8,0x220,0x1f05,0x3b9,0x1f0d,";
"    0x399,0xc90,8,0x220,0x1f06,0x3b9,0x1f0e,0x399,0xc90,8,0x220,0x1f07,0x3b9,0x1f0f,0x399,0x890,";
"    8,0x220,0x1f20,0x3b9,0x1f28,0x399,0x890,8,0x220,0x1f21,0x3b9,0x1f29,0x399,0x890,8,0x220,";
"    0x1f22,0x3b9,0x1f2a,0x399,0x890,8,0x220,0x1f23,0x3b9,0x1f2b,0x399,0x890,8,0x220,0x1f24,0x3b9,";
"    0x1f2c,0x399,0x890,8,0x220,0x1f25,0x3b9,0x1f2d,0x399,0x890,8,0x220,0x1f26,0x3b9,0x1f2e,0x399,";
"    0x890,8,0x220,0x1f27,0x3b9,0x1f2f,0x399,0xc90,8,0x220,0x1f20,0x3b9,0x1f28,0x399,0xc90,8,";
"    0x220,0x1f21,0x3b9,0x1f29,0x399,0xc90,8,0x220,0x1f22,0x3b9,0x1f2a,0x399,0xc90,8,0x220,0x1f23,";
"    0x3b9,0x1f2b,0x399,0xc90,8,0x220,0x1f24,0x3b9,0x1f2c,0x399,0xc90,8,0x220,0x1f25,0x3b9,0x1f2d,";
"    0x399,0xc90,8,0x220,0x1f26,0x3b9,0x1f2e,0x399,0xc90,8,0x220,0x1f27,0x3b9,0x1f2f,0x399,0x890,";
"    8,0x220,0x1f60,0x3b9,0x1f68,0x399,0x890,8,0x220,0x1f61,0x3b9,0x1f69,0x399,0x890,8,0x220,";
"    0x1f62,0x3b9,0x1f6a,0x399,0x890,8,0x220,0x1f63,0x3b9,0x1f6b,0x399,0x890,8,0x220,0x1f64,0x3b9,";
"    0x1f6c,0x399,0x890,8,0x220,0x1f65,0x3b9,0x1f6d,0x399,0x890,8,0x220,0x1f66,0x3b9,0x1f6e,0x399,";
"    0x890,8,0x220,0x1f67,0x3b9,0x1f6f,0x399,0xc90,8,0x220,0x1f60,0x3b9,0x1f68,0x399,0xc90,8,";
"    0x220,0x1f61,0x3b9,0x1f69,0x399,0xc90,8,0x220,0x1f62,0x3b9,0x1f6a,0x399,0xc90,8,0x220,0x1f63,";
"    0x3b9,0x1f6b,0x399,0xc90,8,0x220,0x1f64,0x3b9,0x1f6c,0x399,0xc90,8,0x220,0x1f65,0x3b9,0x1f6d,";
"    0x399,0xc90,8,0x220,0x1f66,0x3b9,0x1f6e,0x399,0xc90,8,0x220,0x1f67,0x3b9,0x1f6f,0x399,0x880,";
"    0x2220,0x1f70,0x3b9,0x1fba,0x399,0x1fba,0x345,0x890,9,0x220,0x3b1,0x3b9,0x391,0x399,0x880,0x2220,";
"    0x3ac,0x3b9,0x386,0x399,0x386,0x345,0x880,0x2220,0x3b1,0x342,0x391,0x342,0x391,0x342,0x880,0x3330,";
"    0x3b1,0x342,0x3b9,0x391,0x342,0x399,0x391,0x342,0x345,0xc90,9,0x220,0x3b1,0x3b9,0x391,0x399,";
"    0x846,0x3b9,0x399,1,0x345,0x880,0x2220,0x1f74,0x3b9,0x1fca,0x399,0x1fca,0x345,0x890,9,0x220,";
"    0x3b7,0x3b9,0x397,0x399,0x880,0x2220,0x3ae,0x3b9,0x389,0x399,0x389,0x345,0x880,0x2220,0x3b7,0x342,";
"    0x397,0x342,0x397,0x342,0x880,0x3330,0x3b7,0x342,0x3b9,0x397,0x342,0x399,0x397,0x342,0x345,0xc90,";
"    9,0x220,0x3b7,0x3b9,0x397,0x399,0x880,0x3330,0x3b9,0x308,0x300,0x399,0x308,0x300,0x399,0x308,";
"    0x300,0x8c0,1,0x3330,0x3b9,0x308,0x301,0x399,0x308,0x301,0x399,0x308,0x301,0x390,0x880,0x2220,";
"    0x3b9,0x342,0x399,0x342,0x399,0x342,0x880,0x3330,0x3b9,0x308,0x342,0x399,0x308,0x342,0x399,0x308,";
"    0x342,0x880,0x3330,0x3c5,0x308,0x300,0x3a5,0x308,0x300,0x3a5,0x308,0x300,0x8c0,1,0x3330,0x3c5,";
"    0x308,0x301,0x3a5,0x308,0x301,0x3a5,0x308,0x301,0x3b0,0x880,0x2220,0x3c1,0x313,0x3a1,0x313,0x3a1,";
"    0x313,0x880,0x2220,0x3c5,0x342,0x3a5,0x342,0x3a5,0x342,0x880,0x3330,0x3c5,0x308,0x342,0x3a5,0x308,";
"    0x342,0x3a5,0x308,0x342,0x880,0x2220,0x1f7c,0x3b9,0x1ffa,0x399,0x1ffa,0x345,0x890,9,0x220,0x3c9,";
"    0x3b9,0x3a9,0x399,0x880,0x2220,0x3ce,0x3b9,0x38f,0x399,0x38f,0x345,0x880,0x2220,0x3c9,0x342,0x3a9,";
"    0x342,0x3a9,0x342,0x880,0x3330,0x3c9,0x342,0x3b9,0x3a9,0x342,0x399,0x3a9,0x342,0x345,0xc90,9,";
"    0x220,0x3c9,0x3b9,0x3a9,0x399,0xc50,0x1d5d,1,0x3a9,0xc50,0x20bf,1,0x4b,0xc50,0x2046,1,";
"    0xc5,0xc10,0x29f7,0xc10,0xee6,0xc10,0x29e7,0xc10,0x2a2b,0xc10,0x2a28,0xc10,0x2a1c,0xc10,0x29fd,0xc10,";
"    0x2a1f,0xc10,0x2a1e,0xc10,0x2a3f,0xc10,0x1c60,0x841,0xa64b,1,0x1c88,0x844,0xa64a,1,0x1c88,0xc10,";
"    0x8a04,0xc10,0xa528,0xc10,0xa544,0xc10,0xa54f,0xc10,0xa54b,0xc10,0xa541,0xc10,0xa512,0xc10,0xa52a,0xc10,";
"    0xa515,0x810,0x3a0,0xc10,0xa543,0xc10,0x8a38,0xc10,0x3a0,0x806,0x13a0,0x13a0,0x806,0x13a1,0x13a1,0x806,";
"    0x13a2,0x13a2,0x806,0x13a3,0x13a3,0x806,0x13a4,0x13a4,0x806,0x13a5,0x13a5,0x806,0x13a6,0x13a6,0x806,0x13a7,";
"    0x13a7,0x806,0x13a8,0x13a8,0x806,0x13a9,0x13a9,0x806,0x13aa,0x13aa,0x806,0x13ab,0x13ab,0x806,0x13ac,0x13ac,";
"    0x806,0x13ad,0x13ad,0x806,0x13ae,0x13ae,0x806,0x13af,0x13af,0x806,0x13b0,0x13b0,0x806,0x13b1,0x13b1,0x806,";
"    0x13b2,0x13b2,0x806,0x13b3,0x13b3,0x806,0x13b4,0x13b4,0x806,0x13b5,0x13b5,0x806,0x13b6,0x13b6,0x806,0x13b7,";
"    0x13b7,0x806,0x13b8,0x13b8,0x806,0x13b9,0x13b9,0x806,0x13ba,0x13ba,0x806,0x13bb,0x13bb,0x806,0x13bc,0x13bc,";
"    0x806,0x13bd,0x13bd,0x806,0x13be,0x13be,0x806,0x13bf,0x13bf,0x806,0x13c0,0x13c0,0x806,0x13c1,0x13c1,0x806,";
"    0x13c2,0x13c2,0x806,0x13c3,0x13c3,0x806,0x13c4,0x13c4,0x806,0x13c5,0x13c5,0x806,0x13c6,0x13c6,0x806,0x13c7,";
"    0x13c7,0x806,0x13c8,0x13c8,0x806,0x13c9,0x13c9,0x806,0x13ca,0x13ca,0x806,0x13cb,0x13cb,0x806,0x13cc,0x13cc,";
"    0x806,0x13cd,0x13cd,0x806,0x13ce,0x13ce,0x806,0x13cf,0x13cf,0x806,0x13d0,0x13d0,0x806,0x13d1,0x13d1,0x806,";
"    0x13d2,0x13d2,0x806,0x13d3,0x13d3,0x806,0x13d4,0x13d4,0x806,0x13d5,0x13d5,0x806,0x13d6,0x13d6,0x806,0x13d7,";
"    0x13d7,0x806,0x13d8,0x13d8,0x806,0x13d9,0x13d9,0x806,0x13da,0x13da,0x806,0x13db,0x13db,0x806,0x13dc,0x13dc,";
"    0x806,0x13dd,0x13dd,0x806,0x13de,0x13de,0x806,0x13df,0x13df,0x806,0x13e0,0x13e0,0x806,0x13e1,0x13e1,0x806,";
"    0x13e2,0x13e2,0x806,0x13e3,0x13e3,0x806,0x13e4,0x13e4,0x806,0x13e5,0x13e5,0x806,0x13e6,0x13e6,0x806,0x13e7,";
"    0x13e7,0x806,0x13e8,0x13e8,0x806,0x13e9,0x13e9,0x806,0x13ea,0x13ea,0x806,0x13eb,0x13eb,0x806,0x13ec,0x13ec,";
"    0x806,0x13ed,0x13ed,0x806,0x13ee,0x13ee,0x806,0x13ef,0x13ef,0x880,0x2220,0x66,0x66,0x46,0x46,0x46,";
"    0x66,0x880,0x2220,0x66,0x69,0x46,0x49,0x46,0x69,0x880,0x2220,0x66,0x6c,0x46,0x4c,0x46,";
"    0x6c,0x880,0x3330,0x66,0x66,0x69,0x46,0x46,0x49,0x46,0x66,0x69,0x880,0x3330,0x66,0x66,";
"    0x6c,0x46,0x46,0x4c,0x46,0x66,0x6c,0x8c0,1,0x2220,0x73,0x74,0x53,0x54,0x53,0x74,";
"    0xfb06,0x8c0,1,0x2220,0x73,0x74,0x53,0x54,0x53,0x74,0xfb05,0x880,0x2220,0x574,0x576,0x544,";
"    0x546,0x544,0x576,0x880,0x2220,0x574,0x565,0x544,0x535,0x544,0x565,0x880,0x2220,0x574,0x56b,0x544,";
"    0x53b,0x544,0x56b,0x880,0x2220,0x57e,0x576,0x54e,0x546,0x54e,0x576,0x880,0x2220,0x574,0x56d,0x544,";
"    0x53d,0x544,0x56d";
"]";
"";
"ucase_props_unfold = [";
"    0x49,5,3,0,0,0x61,0x2be,0,0x1e9a,0,0x66,0x66,0,0xfb00,0,0x66,";
"    0x66,0x69,0xfb03,0,0x66,0x66,0x6c,0xfb04,0,0x66,0x69,0,0xfb01,0,0x66,0x6c,";
"    0,0xfb02,0,0x68,0x331,0,0x1e96,0,0x69,0x307,0,0x130,0,0x6a,0x30c,0,";
"    0x1f0,0,0x73,0x73,0,0xdf,0x1e9e,0x73,0x74,0,0xfb05,0xfb06,0x74,0x308,0,0x1e97,";
"    0,0x77,0x30a,0,0x1e98,0,0x79,0x30a,0,0x1e99,0,0x2bc,0x6e,0,0x149,0,";
"    0x3ac,0x3b9,0,0x1fb4,0,0x3ae,0x3b9,0,0x1fc4,0,0x3b1,0x342,0,0x1fb6,0,0x3b1,";
"    0x342,0x3b9,0x1fb7,0,0x3b1,0x3b9,0,0x1fb3,0x1fbc,0x3b7,0x342,0,0x1fc6,0,0x3b7,0x342,";
"    0x3b9,0x1fc7,0,0x3b7,0x3b9,0,0x1fc3,0x1fcc,0x3b9,0x308,0x300,0x1fd2,0,0x3b9,0x308,0x301,";
"    0x390,0x1fd3,0x3b9,0x308,0x342,0x1fd7,0,0x3b9,0x342,0,0x1fd6,0,0x3c1,0x313,0,0x1fe4,";
"    0,0x3c5,0x308,0x300,0x1fe2,0,0x3c5,0x308,0x301,0x3b0,0x1fe3,0x3c5,0x308,0x342,0x1fe7,0,";
"    0x3c5,0x313,0,0x1f50,0,0x3c5,0x313,0x300,0x1f52,0,0x3c5,0x313,0x301,0x1f54,0,0x3c5,";
"    0x313,0x342,0x1f56,0,0x3c5,0x342,0,0x1fe6,0,0x3c9,0x342,0,0x1ff6,0,0x3c9,0x342,";
"    0x3b9,0x1ff7,0,0x3c9,0x3b9,0,0x1ff3,0x1ffc,0x3ce,0x3b9,0,0x1ff4,0,0x565,0x582,0,";
"    0x587,0,0x574,0x565,0,0xfb14,0,0x574,0x56b,0,0xfb15,0,0x574,0x56d,0,0xfb17,";
"    0,0x574,0x576,0,0xfb13,0,0x57e,0x576,0,0xfb16,0,0x1f00,0x3b9,0,0x1f80,0x1f88,";
"    0x1f01,0x3b9,0,0x1f81,0x1f89,0x1f02,0x3b9,0,0x1f82,0x1f8a,0x1f03,0x3b9,0,0x1f83,0x1f8b,0x1f04,";
"    0x3b9,0,0x1f84,0x1f8c,0x1f05,0x3b9,0,0x1f85,0x1f8d,0x1f06,0x3b9,0,0x1f86,0x1f8e,0x1f07,0x3b9,";
"    0,0x1f87,0x1f8f,0x1f20,0x3b9,0,0x1f90,0x1f98,0x1f21,0x3b9,0,0x1f91,0x1f99,0x1f22,0x3b9,0,";
"    0x1f92,0x1f9a,0x1f23,0x3b9,0,0x1f93,0x1f9b,0x1f24,0x3b9,0,0x1f94,0x1f9c,0x1f25,0x3b9,0,0x1f95,";
"    0x1f9d,0x1f26,0x3b9,0,0x1f96,0x1f9e,0x1f27,0x3b9,0,0x1f97,0x1f9f,0x1f60,0x3b9,0,0x1fa0,0x1fa8,";
"    0x1f61,0x3b9,0,0x1fa1,0x1fa9,0x1f62,0x3b9,0,0x1fa2,0x1faa,0x1f63,0x3b9,0,0x1fa3,0x1fab,0x1f64,";
"    0x3b9,0,0x1fa4,0x1fac,0x1f65,0x3b9,0,0x1fa5,0x1fad,0x1f66,0x3b9,0,0x1fa6,0x1fae,0x1f67,0x3b9,";
"    0,0x1fa7,0x1faf,0x1f70,0x3b9,0,0x1fb2,0,0x1f74,0x3b9,0,0x1fc2,0,0x1f7c,0x3b9,0,";
"    0x1ff2,0";
"]";
"";
"ucase_props_trie_index_length = 3288";
"ucase_props_trie_index_2_null_offset = 0x188";
"ucase_props_trie_data_null_offset = 0xd54";
"ucase_props_trie_high_start = 0xe0800";
"ucase_props_trie_high_value_index = 0x3040";
""].

(** CharPropsData.py:1-3832 *)
Definition CharPropsData_lines : list string := [
"""""""/";
"CharPropsData.py, based on uchar_props_data.h from ICU";
"";
"Generated by ModuleBuilder.py on August 26, 2021 at 11:27:13 AM HST";
"""""""";
"";
"propsTrie_index = [";
"    0x46d,0x475,0x47d,0x485,0x49d,0x4a5,0x4ad,0x4b5,0x4bd,0x4c5,0x4cb,0x4d3,0x4db,0x4e3,0x4eb,0x4f3,";
"    0x4f9,0x501,0x509,0x511,0x514,0x51c,0x524,0x52c,0x534,0x53c,0x538,0x540,0x548,0x550,0x555,0x55d,";
"    0x565,0x56d,0x571,0x579,0x581,0x589,0x591,0x599,0x595,0x59d,0x5a2,0x5aa,0x5b0,0x5b8,0x5c0,0x5c8,";
"    0x5d0,0x5d8,0x5e0,0x5e8,0x5ed,0x5f5,0x5f8,0x600,0x608,0x610,0x616,0x61e,0x61d,0x625,0x62d,0x635,";
"    0x645,0x63d,0x64d,0x655,0x48d,0x665,0x66b,0x65d,0x67b,0x67d,0x685,0x673,0x695,0x69b,0x6a3,0x68d,";
"    0x6b3,0x6b9,0x6c1,0x6ab,0x6d1,0x6d7,0x6df,0x6c9,0x6ef,0x6f5,0x6fd,0x6e7,0x70d,0x715,0x71d,0x705,";
"    0x72d,0x733,0x73b,0x725,0x74b,0x751,0x759,0x743,0x769,0x76e,0x776,0x761,0x786,0x78d,0x795,0x77e,";
"    0x619,0x79d,0x7a5,0x48d,0x7ad,0x7b4,0x7bc,0x48d,0x7c4,0x7cc,0x7d4,0x7d9,0x7e1,0x7e8,0x7f0,0x48d,";
"    0x5d8,0x7f8,0x800,0x808,0x810,0x565,0x820,0x818,0x5d8,0x5d8,0x5d8,0x5d8,0x5d8,0x5d8,0x5d8,0x5d8,";
"    0x5d8,0x5d8,0x828,0x5d8,0x830,0x834,0x83c,0x5d8,0x842,0x5d8,0x848,0x850,0x858,0x565,0x565,0x860,";
"    0x868,0x5d8,0x5d8,0x5d8,0x5d8,0x5d8,0x5d8,0x5d8,0x5d8,0x5d8,0x5d8,0x5d8,0x5d8,0x5d8,0x5d8,0x5d8,";
"    0x5d8,0x5d8,0x5d8,0x86d,0x875,0x5d8,0x5d8,0x87d,0x885,0x88d,0x895,0x89d,0x5d8,0x8a5,0x8ad,0x8b5,";
"    0x8c5,0x5d8,0x8cd,0x8cf,0x8d7,0x8bd,0x5d8,0x8da,0x8ee,0x8e2,0x8ea,0x8f6,0x5d8,0x8fe,0x904,0x90c,";
"    0x914,0x5d8,0x924,0x92c,0x934,0x91c,0x944,0x48d,0x94c,0x94f,0x957,0x93c,0x967,0x95f,0x5d8,0x96e,";
"    0x5d8,0x97d,0x976,0x985,0x98d,0x991,0x999,0x9a1,0x50d,0x9a9,0x9ac,0x9b2,0x9b9,0x9ac,0x534,0x9c1,";
"    0x4bd,0x4bd,0x4bd,0x4bd,0x9c9,0x4bd,0x4bd,0x4bd,0x9d9,0x9e1,0x9e9,0x9f1,0x9f9,0x9fd,0xa05,0x9d1,";
"    0xa1d,0xa25,0xa0d,0xa15,0xa2d,0xa35,0xa3d,0xa45,0xa5d,0xa4d,0xa55,0xa65,0xa6d,0xa7c,0xa81,0xa74,";
"    0xa89,0xa89,0xa89,0xa89,0xa89,0xa89,0xa89,0xa89,0xa91,0xa99,0x90c,0xa9c,0xaa4,0xaab,0xab0,0xab8,";
"    0x90c,0xabf,0xabe,0xacf,0xad2,0x90c,0x90c,0xac7,0x90c,0x90c,0x90c,0x90c,0x90c,0xae1,0xae9,0xad9,";
"    0x90c,0x90c,0x90c,0xaee,0x90c,0x90c,0x90c,0x90c,0x90c,0x90c,0x90c,0xaf4,0xafc,0x90c,0xb04,0xb0b,";
"    0x90c,0x90c,0x90c,0x90c,0x90c,0x90c,0x90c,0x90c,0xa89,0xa89,0xa89,0xa89,0xb13,0xa89,0xb1a,0xb21,";
"    0xa89,0xa89,0xa89,0xa89,0xa89,0xa89,0xa89,0xa89,0x90c,0xb29,0xb30,0xb34,0xb3a,0x90c,0x90c,0x90c,";
"    0x565,0xb4a,0xb42,0xb52,0x4bd,0x4bd,0x4bd,0xb5a,0x50d,0xb62,0x5d8,0xb68,0xb78,0xb70,0xb70,0x534,";
"    0xb80,0xb88,0xb90,0x48d,0xb98,0x90c,0x90c,0xb9f,0x90c,0x90c,0x90c,0x90c,0x90c,0x90c,0xba7,0xbad,";
"    0xbbd,0xbb5,0x619,0x5d8,0xbc5,0x868,0x5d8,0xbcd,0xbd5,0xbd9,0x5d8,0x5d8,0xbde,0x5d8,0x90c,0xbe5,";
"    0xab9,0xbed,0xbf3,0x90c,0xbed,0xbfb,0x90c,0x90c,0x90c,0x90c,0x90c,0x90c,0x90c,0x90c,0x90c,0x90c,";
"    0xc03,0x5d8,0x5d8,0x5d8,0xc0b,0x5d8,0x5d8,0x5d8,0x5d8,0x5d8,0x5d8,0x5d8,0x5d8,0x5d8,0x5d8,0x5d8,";
"    0x5d8,0x5d8,0x5d8,0x5d8,0x5d8,0x5d8,0x5d8,0x5d8,0x5d8,0x5d8,0x5d8,0x5d8,0x5d8,0x5d8,0x5d8,0x5d8,";
"    0x5d8,0xc11,0x5d8,0x5d8,0x5d8,0x5d8,0x5d8,0x5d8,0x5d8,0x5d8,0x5d8,0x5d8,0x5d8,0x5d8,0x5d8,0x5d8,";
"    0x5d8,0x5d8,0x5d8,0x5d8,0x5d8,0x5d8,0x5d8,0x5d8,0x5d8,0x5d8,0xc16,0x5d8,0x5d8,0x5d8,0x5d8,0x5d8,";
"    0x5d8,0x5d8,0x5d8,0x5d8,0x5d8,0x5d8,0x5d8,0x5d8,0x5d8,0x5d8,0x5d8,0x5d8,0x5d8,0x5d8,0x5d8,0x5d8,";
"    0x5d8,0x5d8,0x5d8,0x5d8,0x5d8,0x5d8,0x5d8,0x5d8,0x5d8,0x5d8,0x5d8,0x5d8,0x5d8,0x5d8,0x5d8,0x5d8,";
"    0x5d8,0x5d8,0x5d8,0x5d8,0x5d8,0x5d8,0x5d8,0x5d8,0x5d8,0x5d8,0x5d8,0x5d8,0x5d8,0x5d8,0x5d8,0x5d8,";
"    0x5d8,0x5d8,0x5d8,0x5d8,0x5d8,0x5d8,0x5d8,0x5d8,0x5d8,0x5d8,0x5d8,0x5d8,0x5d8,0x5d8,0x5d8,0x5d8,";
"    0x5d8,0x5d8,0x5d8,0x5d8,0x5d8,0x5d8,0x5d8,0x5d8,0x5d8,0x5d8,0x5d8,0x5d8,0x5d8,0x5d8,0x5d8,0x5d8,";
"    0x5d8,0x5d8,0x5d8,0x5d8,0x5d8,0x5d8,0x5d8,0x5d8,0x5d8,0x5d8,0x5d8,0x5d8,0x5d8,0x5d8,0x5d8,0x5d8,";
"    0x5d8,0x5d8,0x5d8,0x5d8,0x5d8,0x5d8,0x5d8,0x5d8,0x5d8,0x5d8,0x5d8,0x5d8,0x5d8,0x5d8,0x5d8,0x5d8,";
"    0x5d8,0x5d8,0x5d8,0x5d8,0x5d8,0x5d8,0x5d8,0x5d8,0x5d8,0x5d8,0x5d8,0x5d8,0x5d8,0x5d8,0x5d8,0x5d8,";
"    0x5d8,0x5d8,0x5d8,0x5d8,0x5d8,0x5d8,0x5d8,0x5d8,0x5d8,0x5d8,0x5d8,0x5d8,0x5d8,0x5d8,0x90c,0x90c,";
"    0xc1e,0x5d8,0xc21,0x5d8,0xc29,0xc2f,0xc37,0xc3f,0xc44,0x5d8,0x5d8,0xc48,0x5d8,0x5d8,0x5d8,0x5d8,";
"    0x5d8,0x5d8,0x5d8,0x5d8,0x5d8,0x5d8,0x5d8,0x5d8,0xc4f,0x5d8,0xc56,0xc5c,0x5d8,0x5d8,0x5d8,0x5d8,";
"    0x5d8,0x5d8,0x5d8,0x5d8,0x5d8,0x5d8,0x5d8,0x5d8,0x5d8,0x5d8,0xc64,0x5d8,0x5d8,0x5d8,0xc6c,0x5d8,";
"    0x5d8,0x5d8,0x5d8,0x5d8,0x5d8,0x5d8,0x5d8,0x5d8,0x5d8,0x5d8,0x5d8,0x5d8,0x5d8,0x5d8,0x5d8,0x5d8,";
"    0x5d8,0x5d8,0x5d8,0x5d8,0x5d8,0x5d8,0xc6e,0x5d8,0x5d8,0x5d8,0x5d8,0x5d8,0x5d8,0x5d8,0x5d8,0x5d8,";
"    0x5d8,0x5d8,0x5d8,0x5d8,0x5d8,0x5d8,0x5d8,0xc75,0x5d8,0x5d8,0x5d8,0x5d8,0x5d8,0x5d8,0x5d8,0x5d8,";
"    0x5d8,0x5d8,0x5d8,0x5d8,0x5d8,0x5d8,0x5d8,0x5d8,0x5d8,0x5d8,0x5d8,0x5d8,0x5d8,0x5d8,0x5d8,0x5d8,";
"    0x5d8,0x5d8,0x5d8,0x5d8,0x5d8,0x5d8,0x5d8,0x5d8,0x5d8,0x5d8,0x5d8,0x5d8,0x5d8,0x5d8,0x5d8,0x5d8,";
"    0x5d8,0x5d8,0x5d8,0xc7c,0x5d8,0x5d8,0x5d8,0xc83,0xc8b,0x5d8,0x5d8,0x5d8,0x5d8,0x5d8,0x5d8,0x5d8,";
"    0x5d8,0x5d8,0x5d8,0x5d8,0x5d8,0x5d8,0x5d8,0x5d8,0x5d8,0x5d8,0x5d8,0x5d8,0x5d8,0x5d8,0x5d8,0x5d8,";
"    0x5d8,0x5d8,0x5d8,0x5d8,0x5d8,0x5d8,0x5d8,0xc90,0x5d8,0x5d8,0xc98,0x5d8,0x5d8,0x5d8,0x5d8,0x5d8,";
"    0x5d8,0x5d8,0x5d8,0x5d8,0x5d8,0x5d8,0x5d8,0x5d8,0x5d8,0x5d8,0x5d8,0x5d8,0x5d8,0x5d8,0x5d8,0x5d8,";
"    0x5d8,0x5d8,0x5d8,0x5d8,0x5d8,0x5d8,0x5d8,0x5d8,0x5d8,0x5d8,0x5d8,0x5d8,0x5d8,0x5d8,0xc9c,0x5d8,";
"    0x5d8,0x5d8,0x5d8,0x5d8,0x5d8,0x5d8,0x5d8,0x5d8,0x5d8,0x5d8,0x5d8,0x5d8,0x5d8,0x5d8,0x5d8,0x5d8,";
"    0x5d8,0x5d8,0x5d8,0x5d8,0x5d8,0x5d8,0x5d8,0x5d8,0x5d8,0x5d8,0x5d8,0x5d8,0x5d8,0x5d8,0x5d8,0x5d8,";
"    0x5d8,0x5d8,0x5d8,0x5d8,0x5d8,0x5d8,0x5d8,0x5d8,0x5d8,0x5d8,0x5d8,0x5d8,0x5d8,0x5d8,0x5d8,0x5d8,";
"    0x5d8,0x5d8,0x5d8,0x5d8,0x5d8,0x5d8,0x5d8,0x5d8,0xc9f,0x5d8,0x5d8,0x5d8,0x5d8,0x5d8,0x5d8,0x5d8,";
"    0x5d8,0x5d8,0x5d8,0x5d8,0x5d8,0x5d8,0x5d8,0x5d8,0x5d8,0x5d8,0x5d8,0x5d8,0x5d8,0x5d8,0x5d8,0x5d8,";
"    0x5d8,0x5d8,0x5d8,0x5d8,0x5d8,0x5d8,0x5d8,0x5d8,0x5d8,0x5d8,0x5d8,0x5d8,0xca2,0x5d8,0x5d8,0x5d8,";
"    0x5d8,0x5d8,0x5d8,0x5d8,0x5d8,0x5d8,0x5d8,0x5d8,0x5d8,0x5d8,0x5d8,0x5d8,0x5d8,0x5d8,0x5d8,0x5d8,";
"    0x5d8,0x5d8,0x5d8,0xca8,0x5d8,0x5d8,0x5d8,0x5d8,0x5d8,0x5d8,0x5d8,0x5d8,0x5d8,0x5d8,0x5d8,0x5d8,";
"    0x5d8,0x5d8,0x5d8,0x5d8,0x5d8,0x5d8,0x5d8,0x5d8,0x5d8,0x5d8,0x5d8,0x5d8,0x5d8,0x5d8,0x5d8,0x5d8,";
"    0x5d8,0x5d8,0x5d8,0x5d8,0x5d8,0x5d8,0x5d8,0x5d8,0x5d8,0x5d8,0x5d8,0x5d8,0x5d8,0x5d8,0x5d8,0x5d8,";
"    0x5d8,0x5d8,0x5d8,0x5d8,0x5d8,0x5d8,0x5d8,0x5d8,0x5d8,0x5d8,0x5d8,0x5d8,0x5d8,0x5d8,0x5d8,0x5d8,";
"    0x5d8,0x5d8,0x5d8,0x5d8,0x5d8,0x5d8,0x5d8,0x5d8,0x5d8,0x5d8,0x5d8,0x5d8,0x5d8,0x5d8,0x5d8,0x5d8,";
"    0x5d8,0x5d8,0x5d8,0x5d8,0xcb0,0x5d8,0x5d8,0x5d8,0x5d8,0x5d8,0x5d8,0x5d8,0x5d8,0x5d8,0x5d8,0x5d8,";
"    0x5d8,0x5d8,0x5d8,0x5d8,0x5d8,0x5d8,0x5d8,0x5d8,0x5d8,0x5d8,0x5d8,0x5d8,0x5d8,0x5d8,0x5d8,0x5d8,";
"    0x5d8,0xcb5,0x5d8,0x5d8,0x5d8,0x5d8,0x5d8,0x5d8,0x5d8,0x5d8,0x5d8,0x5d8,0x5d8,0x5d8,0x5d8,0x5d8,";
"    0x5d8,0x5d8,0x5d8,0x5d8,0x5d8,0x5d8,0x5d8,0x5d8,0x5d8,0x5d8,0x5d8,0x5d8,0x5d8,0x5d8,0x5d8,0x5d8,";
"    0x5d8,0x5d8,0x5d8,0x5d8,0x5d8,0x5d8,0x5d8,0x5d8,0x5d8,0x5d8,0x5d8,0x5d8,0x5d8,0x5d8,0x5d8,0x5d8,";
"    0x5d8,0x5d8,0x5d8,0x5d8,0x5d8,0x5d8,0x5d8,0x5d8,0x5d8,0x5d8,0x5d8,0x5d8,0x5d8,0x5d8,0x5d8,0x5d8,";
"    0x5d8,0x5d8,0x5d8,0x5d8,0x5d8,0xcba,0x5d8,0x5d8,0x5d8,0xcbf,0x5d8,0x5d8,0x5d8,0x5d8,0x5d8,0x5d8,";
"    0x5d8,0x5d8,0x5d8,0x5d8,0x5d8,0x5d8,0x5d8,0x5d8,0x5d8,0x5d8,0x5d8,0x5d8,0x5d8,0x5d8,0x5d8,0x5d8,";
"    0x5d8,0x5d8,0x5d8,0x5d8,0x5d8,0x5d8,0x5d8,0x5d8,0x5d8,0x5d8,0x5d8,0x5d8,0x5d8,0x5d8,0x5d8,0x5d8,";
"    0x5d8,0x5d8,0x5d8,0x5d8,0x5d8,0x5d8,0x5d8,0x5d8,0x5d8,0x5d8,0x5d8,0x5d8,0x5d8,0x5d8,0x5d8,0x5d8,";
"    0x5d8,0x5d8,0x5d8,0x5d8,0x5d8,0x5d8,0x5d8,0x5d8,0x5d8,0x5d8,0x5d8,0x5d8,0x5d8,0x5d8,0x5d8,0x5d8,";
"    0x5d8,0xcc7,0xcce,0xcd2,0x5d8,0x5d8,0x5d8,0xcd9,0x5d8,0x5d8,0x5d8,0x5d8,0x5d8,0x5d8,0x5d8,0x5d8,";
"    0x5d8,0x5d8,0x5d8,0x5d8,0x5d8,0x5d8,0x5d8,0x5d8,0x5d8,0x5d8,0x5d8,0x5d8,0x5d8,0x5d8,0x5d8,0x5d8,";
"    0x5d8,0x5d8,0x5d8,0x5d8,0x5d8,0x5d8,0x5d8,0x5d8,0x5d8,0x5d8,0x5d8,0x5d8,0x5d8,0x5d8,0x5d8,0x5d8,";
"    0x5d8,0x5d8,0x5d8,0x5d8,0x5d8,0x5d8,0x5d8,0x5d8,0x5d8,0x5d8,0x5d8,0x5d8,0x5d8,0x5d8,0x5d8,0x5d8,";
"    0x5d8,0x5d8,0x5d8,0x5d8,0x5d8,0x5d8,0x5d8,0x5d8,0x5d8,0x5d8,0x5d8,0x5d8,0x5d8,0x5d8,0x5d8,0x8ce,";
"    0xce7,0x5d8,0x5d8,0x5d8,0x5d8,0x5d8,0x5d8,0x5d8,0x5d8,0x5d8,0x5d8,0x5d8,0x5d8,0x5d8,0x5d8,0x5d8,";
"    0x5d8,0x5d8,0x5d8,0x5d8,0x5d8,0x5d8,0x5d8,0x5d8,0x5d8,0x5d8,0x5d8,0x5d8,0x5d8,0x5d8,0x5d8,0x5d8,";
"    0x5d8,0x5d8,0x5d8,0x5d8,0xcdf,0x90c,0xcef,0x985,0x5d8,0x5d8,0x5d8,0x5d8,0x5d8,0x5d8,0x5d8,0x5d8,";
"    0xcf4,0xcfc,0x4bd,0xd0c,0xd04,0x5d8,0x5d8,0xd14,0xd1c,0xd2c,0x4bd,0xd31,0xd39,0xd3f,0xd47,0xd24,";
"    0xd4f,0xd57,0x5d8,0xd5f,0xd6f,0xd72,0xd67,0xd7a,0x62d,0xd82,0xd89,0x8ce,0x67b,0xd99,0xd91,0xda1,";
"    0x5d8,0xda9,0xdb1,0xdb9,0x5d8,0xdc1,0xdc9,0xdd1,0xdd9,0xde1,0xde5,0xded,0x50d,0x50d,0x5d8,0xdf5,";
"    0x5d8,0x5d8,0x5d8,0x5d8,0x5d8,0x5d8,0x5d8,0x5d8,0x5d8,0x5d8,0x5d8,0x5d8,0x5d8,0x5d8,0x5d8,0x5d8,";
"    0x5d8,0x5d8,0x5d8,0x5d8,0x5d8,0x5d8,0x5d8,0x5d8,0x5d8,0x5d8,0x5d8,0x5d8,0x5d8,0x5d8,0x5d8,0x5d8,";
"    0x5d8,0x5d8,0x5d8,0x5d8,0x5d8,0x5d8,0x5d8,0x5d8,0x5d8,0x5d8,0x5d8,0x5d8,0x5d8,0x5d8,0x5d8,0x5d8,";
"    0x5d8,0x5d8,0x5d8,0x5d8,0x5d8,0x5d8,0x5d8,0x5d8,0x5d8,0x5d8,0x5d8,0x5d8,0x5d8,0x5d8,0x5d8,0x5d8,";
"    0x5d8,0x5d8,0x5d8,0x5d8,0x5d8,0x5d8,0x5d8,0x5d8,0x5d8,0x5d8,0x5d8,0x5d8,0x5d8,0x5d8,0x5d8,0x5d8,";
"    0x5d8,0x5d8,0x5d8,0x5d8,0x5d8,0x5d8,0x5d8,0x5d8,0x5d8,0x5d8,0x5d8,0x5d8,0x5d8,0x5d8,0x5d8,0x5d8,";
"    0x5d8,0x5d8,0x5d8,0x5d8,0x5d8,0x5d8,0x5d8,0x5d8,0x5d8,0x5d8,0x5d8,0x5d8,0x5d8,0x5d8,0x5d8,0x5d8,";
"    0x5d8,0x5d8,0x5d8,0x5d8,0x5d8,0x5d8,0x5d8,0x5d8,0x5d8,0x5d8,0x5d8,0x5d8,0x5d8,0x5d8,0x5d8,0x5d8,";
"    0x5d8,0x5d8,0x5d8,0x5d8,0x5d8,0x5d8,0x5d8,0x5d8,0x5d8,0x5d8,0x5d8,0x5d8,0x5d8,0x5d8,0x5d8,0x5d8,";
"    0x5d8,0x5d8,0x5d8,0x5d8,0x5d8,0x5d8,0x5d8,0x5d8,0x5d8,0x5d8,0x5d8,0x5d8,0x5d8,0x5d8,0x5d8,0x5d8,";
"    0x5d8,0x5d8,0x5d8,0x5d8,0x5d8,0x5d8,0x5d8,0x5d8,0x5d8,0x5d8,0x5d8,0x5d8,0x5d8,0x5d8,0x5d8,0x5d8,";
"    0x5d8,0x5d8,0x5d8,0x5d8,0x5d8,0x5d8,0x5d8,0x5d8,0x5d8,0x5d8,0x5d8,0x5d8,0x5d8,0x5d8,0x5d8,0x5d8,";
"    0x5d8,0x5d8,0x5d8,0x5d8,0x5d8,0x5d8,0x5d8,0x5d8,0x5d8,0x5d8,0x5d8,0x5d8,0x5d8,0x5d8,0x5d8,0x5d8,";
"    0x5d8,0x5d8,0x5d8,0x5d8,0x5d8,0x5d8,0x5d8,0x5d8,0x5d8,0x5d8,0x5d8,0x5d8,0x5d8,0x5d8,0x5d8,0x5d8,";
"    0x5d8,0x5d8,0x5d8,0x5d8,0x5d8,0x5d8,0x5d8,0x5d8,0x5d8,0x5d8,0x5d8,0x5d8,0x5d8,0x5d8,0x5d8,0x5d8,";
"    0x5d8,0x5d8,0x5d8,0x5d8,0x5d8,0x5d8,0x5d8,0x5d8,0x5d8,0x5d8,0x5d8,0x5d8,0x5d8,0x5d8,0x5d8,0x5d8,";
"    0x5d8,0x5d8,0x5d8,0x5d8,0x5d8,0x5d8,0x5d8,0x5d8,0x5d8,0x5d8,0x5d8,0x5d8,0x5d8,0x5d8,0x5d8,0x5d8,";
"    0x5d8,0x5d8,0x5d8,0x5d8,0x5d8,0x5d8,0x5d8,0x5d8,0x5d8,0x5d8,0x5d8,0x5d8,0x5d8,0x5d8,0x5d8,0x5d8,";
"    0x5d8,0x5d8,0x5d8,0x5d8,0x5d8,0x5d8,0x5d8,0x5d8,0x5d8,0x5d8,0x5d8,0x5d8,0x5d8,0x5d8,0x5d8,0x5d8,";
"    0x5d8,0x5d8,0x5d8,0x5d8,0x5d8,0x5d8,0x5d8,0x5d8,0x5d8,0x5d8,0x5d8,0x5d8,0x5d8,0x5d8,0x5d8,0x5d8,";
"    0x5d8,0x5d8,0x5d8,0x5d8,0x5d8,0x5d8,0x5d8,0x5d8,0x5d8,0x5d8,0x5d8,0x5d8,0x5d8,0x5d8,0x5d8,0x5d8,";
"    0x5d8,0x5d8,0x5d8,0x5d8,0x5d8,0x5d8,0x5d8,0x5d8,0x5d8,0x5d8,0x5d8,0x5d8,0x5d8,0xdfd,0xe09,0xe01,";
"    0x48d,0x48d,0x48d,0x48d,0x48d,0x48d,0x48d,0x48d,0x48d,0x48d,0x48d,0x48d,0x48d,0x48d,0x48d,0x48d,";
"    0x48d,0x48d,0x48d,0x48d,0x48d,0x48d,0x48d,0x48d,0x48d,0x48d,0x48d,0x48d,0x48d,0x48d,0x48d,0x48d,";
"    0xe11,0xe11,0xe11,0xe11,0xe11,0xe11,0xe11,0xe11,0xe11,0xe11,0xe11,0xe11,0xe11,0xe11,0xe11,0xe11,";
"    0xe11,0xe11,0xe11,0xe11,0xe11,0xe11,0xe11,0xe11,0xe11,0xe11,0xe11,0xe11,0xe11,0xe11,0xe11,0xe11,";
"    0xe19,0xe19,0xe19,0xe19,0xe19,0xe19,0xe19,0xe19,0xe19,0xe19,0xe19,0xe19,0xe19,0xe19,0xe19,0xe19,";
"    0xe19,0xe19,0xe19,0xe19,0xe19,0xe19,0xe19,0xe19,0xe19,0xe19,0xe19,0xe19,0xe19,0xe19,0xe19,0xe19,";
"    0xe19,0xe19,0xe19,0xe19,0xe19,0xe19,0xe19,0xe19,0xe19,0xe19,0xe19,0xe19,0xe19,0xe19,0xe19,0xe19,";
"    0xe19,0xe19,0xe19,0xe19,0xe19,0xe19,0xe19,0xe19,0xe19,0xe19,0xe19,0xe19,0xe19,0xe19,0xe19,0xe19,";
"    0xe19,0xe19,0xe19,0xe19,0xe19,0xe19,0xe19,0xe19,0xe19,0xe19,0xe19,0xe19,0xe19,0xe19,0xe19,0xe19,";
"    0xe19,0xe19,0xe19,0xe19,0xe19,0xe19,0xe19,0xe19,0xe19,0xe19,0xe19,0xe19,0xe19,0xe19,0xe19,0xe19,";
"    0xe19,0xe19,0xe19,0xe19,0xe19,0xe19,0xe19,0xe19,0xe19,0xe19,0xe19,0xe19,0xe19,0xe19,0xe19,0xe19,";
"    0xe19,0xe19,0xe19,0xe19,0xe19,0xe19,0xe19,0xe19,0xe19,0xe19,0xe19,0xe19,0xe19,0xe19,0xe19,0xe19,";
"    0xe19,0xe19,0xe19,0xe19,0xe19,0xe19,0xe19,0xe19,0xe19,0xe19,0xe19,0xe19,0xe19,0xe19,0xe19,0xe19,";
"    0xe19,0xe19,0xe19,0xe19,0xe19,0xe19,0xe19,0xe19,0xe19,0xe19,0xe19,0xe19,0xe19,0xe19,0xe19,0xe19,";
"    0xe19,0xe19,0xe19,0xe19,0xe19,0xe19,0xe19,0xe19,0xe19,0xe19,0xe19,0xe19,0xe19,0xe19,0xe19,0xe19,";
"    0xe19,0xe19,0xe19,0xe19,0xe19,0xe19,0xe19,0xe19,0xe19,0xe19,0xe19,0xe19,0xe19,0xe19,0xe19,0xe19,";
"    0xe19,0xe19,0xe19,0xe19,0xe19,0xe19,0xe19,0xe19,0x5d8,0x5d8,0x5d8,0xe21,0x5d8,0xcda,0xe28,0xe2d,";
"    0x5d8,0x5d8,0x5d8,0xe35,0x5d8,0x5d8,0x8d9,0x48d,0xe4b,0xe3b,0xe43,0x5d8,0x5d8,0xe53,0xe5b,0x5d8,";
"    0x5d8,0x5d8,0x5d8,0x5d8,0x5d8,0x5d8,0x5d8,0x5d8,0x5d8,0xe60,0xe68,0x5d8,0xe6c,0x5d8,0xe72,0xe76,";
"    0xe7e,0xe86,0xe8d,0xe95,0x5d8,0x5d8,0x5d8,0xe9b,0xeb3,0x47d,0xebb,0xec3,0xec8,0x8ee,0xea3,0xeab,";
"    0xe11,0xe11,0xe11,0xe11,0xe11,0xe11,0xe11,0xe11,0xe11,0xe11,0xe11,0xe11,0xe11,0xe11,0xe11,0xe11,";
"    0xe11,0xe11,0xe11,0xe11,0xe11,0xe11,0xe11,0xe11,0xe11,0xe11,0xe11,0xe11,0xe11,0xe11,0xe11,0xe11,";
"    0x1234,0x1234,0x1274,0x12b4,0x12f4,0x132c,0x136c,0x13ac,0x13e4,0x1424,0x1450,0x1490,0x14d0,0x14e0,0x1520,0x1554,";
"    0x1594,0x15c4,0x1604,0x1644,0x1654,0x1688,0x16c0,0x1700,0x1740,0x1780,0x17b4,0x17e0,0x1820,0x1858,0x1874,0x18b4,";
"    0xa80,0xac0,0xb00,0xb40,0xb80,0xa40,0xbc0,0xa40,0xbe2,0xa40,0xa40,0xa40,0xa40,0xc22,0x1db,0x1db,";
"    0xc62,0xca2,0xa40,0xa40,0xa40,0xa40,0xce2,0xd02,0xa40,0xa40,0xd42,0xd82,0xdc2,0xe02,0xe42,0xe82,";
"    0xec2,0xef9,0x1db,0x1db,0xf1d,0xf51,0x1db,0xf79,0x1db,0x1db,0x1db,0x1db,0xfa6,0x1db,0x1db,0x1db,";
"    0x1db,0x1db,0x1db,0x1db,0xfba,0x1db,0xff2,0x1032,0x1db,0x103d,0x1db,0x1db,0x1db,0x1073,0xa40,0x10b3,";
"    0x1db,0x1db,0x10f3,0xa40,0xa40,0xa40,0xa40,0xa40,0xa40,0xa40,0xa40,0xa40,0xa40,0xa40,0xa40,0xa40,";
"    0xa40,0xa40,0xa40,0xa40,0xa40,0xa40,0xa40,0xa40,0xa40,0xa40,0xa40,0xa40,0xa40,0xa40,0xa40,0xa40,";
"    0xa40,0xa40,0xa40,0xa40,0xa40,0xa40,0xa40,0xa40,0xa40,0xa40,0xa40,0xa40,0xa40,0xa40,0xa40,0xa40,";
"    0xa40,0xa40,0xa40,0xa40,0xa40,0xa40,0xa40,0xa40,0xa40,0xa40,0xa40,0xa40,0xa40,0xa40,0xa40,0xa40,";
"    0xa40,0xa40,0xa40,0xa40,0xa40,0xa40,0xa40,0xa40,0xa40,0xa40,0xa40,0xa40,0xa40,0xa40,0xa40,0xa40,";
"    0xa40,0xa40,0xa40,0xa40,0xa40,0xa40,0xa40,0xa40,0xa40,0xa40,0xa40,0xa40,0xa40,0xa40,0xa40,0xa40,";
"    0xa40,0xa40,0xa40,0xa40,0xa40,0xa40,0xa40,0xa40,0xa40,0xa40,0xa40,0xa40,0xa40,0xa40,0xa40,0xa40,";
"    0xa40,0xa40,0xa40,0xa40,0xa40,0xa40,0xa40,0xa40,0xa40,0xa40,0xa40,0xa40,0xa40,0xa40,0xa40,0xa40,";
"    0xa40,0xa40,0xa40,0xa40,0xa40,0xa40,0xa40,0xa40,0xa40,0xa40,0xa40,0xa40,0xa40,0xa40,0xa40,0xa40,";
"    0xa40,0xa40,0xa40,0xa40,0xa40,0xa40,0xa40,0xa40,0xa40,0xa40,0xa40,0xa40,0xa40,0xa40,0xa40,0xa40,";
"    0xa40,0xa40,0xa40,0xa40,0xa40,0xa40,0xa40,0xa40,0xa40,0xa40,0xa40,0xa40,0xa40,0xa40,0xa40,0xa40,";
"    0xa40,0xa40,0xa40,0xa40,0xa40,0xa40,0xa40,0xa40,0xa40,0xa40,0xa40,0xa40,0xa40,0xa40,0xa40,0xa40,";
"    0xa40,0xa40,0xa40,0xa40,0xa40,0xa40,0xa40,0xa40,0xa40,0xa40,0xa40,0xa40,0xa40,0xa40,0xa40,0xa40,";
"    0xa40,0xa40,0xa40,0xa40,0xa40,0xa40,0xa40,0xa40,0xa40,0xa40,0xa40,0xa40,0xa40,0xa40,0xa40,0xa40,";
"    0xa40,0xa40,0xa40,0xa40,0xa40,0xa40,0xa40,0xa40,0xa40,0xa40,0xa40,0xa40,0xa40,0xa40,0xa40,0xa40,";
"    0xa40,0xa40,0xa40,0xa40,0xa40,0xa40,0xa40,0xa40,0xa40,0xa40,0xa40,0xa40,0xa40,0xa40,0xa40,0xa40,";
"    0xa40,0xa40,0xa40,0xa40,0xa40,0xa40,0xa40,0xa40,0xa40,0xa40,0xa40,0xa40,0xa40,0xa40,0xa40,0xa40,";
"    0xa40,0xa40,0xa40,0xa40,0xa40,0xa40,0xa40,0xa40,0xa40,0xa40,0xa40,0xa40,0xa40,0xa40,0xa40,0xa40,";
"    0xa40,0xa40,0xa40,0xa40,0xa40,0xa40,0xa40,0xa40,0xa40,0xa40,0xa40,0xa40,0xa40,0xa40,0xa40,0xa40,";
"    0xa40,0xa40,0xa40,0xa40,0xa40,0xa40,0xa40,0xa40,0xa40,0xa40,0xa40,0xa40,0xa40,0xa40,0xa40,0xa40,";
"    0xa40,0xa40,0xa40,0xa40,0xa40,0xa40,0xa40,0xa40,0xa40,0xa40,0xa40,0xa40,0xa40,0xa40,0xa40,0xa40,";
"    0xa40,0xa40,0xa40,0xa40,0xa40,0xa40,0xa40,0xa40,0xa40,0xa40,0xa40,0xa40,0xa40,0xa40,0xa40,0xa40,";
"    0x1133,0xa40,0xa40,0xa40,0xa40,0xa40,0xa40,0xa40,0xa40,0xa40,0xa40,0xa40,0xa40,0xa40,0xa40,0xa40,";
"    0xa40,0xa40,0xa40,0xa40,0xa40,0xa40,0xa40,0xa40,0xa40,0xa40,0xa40,0xa40,0xa40,0xa40,0xa40,0xa40,";
"    0x700,0x700,0x700,0x700,0x700,0x700,0x700,0x700,0x700,0x700,0x700,0x700,0x700,0x700,0x700,0x700,";
"    0x700,0x700,0x700,0x700,0x700,0x700,0x700,0x700,0x700,0x700,0x700,0x700,0x700,0x700,0x700,0x1173,";
"    0x700,0x700,0x700,0x700,0x700,0x700,0x700,0x700,0x700,0x700,0x700,0x700,0x700,0x700,0x700,0x700,";
"    0x700,0x700,0x700,0x700,0x700,0x700,0x700,0x700,0x700,0x700,0x700,0x700,0x700,0x700,0x700,0x1173,";
"    0x48d,0x48d,0x48d,0x48d,0x48d,0x48d,0x48d,0x48d,0x48d,0x48d,0x48d,0x48d,0x48d,0x48d,0x48d,0x48d,";
"    0x48d,0x48d,0x48d,0x48d,0x48d,0x48d,0x48d,0x48d,0x48d,0x48d,0x48d,0x48d,0x48d,0x48d,0x48d,0x48d,";
"    0x48d,0x48d,0x48d,0x48d,0x48d,0x48d,0x48d,0x48d,0x48d,0x48d,0x48d,0x48d,0x48d,0x48d,0x48d,0x48d,";
"    0x48d,0x48d,0x48d,0x48d,0x48d,0x48d,0x48d,0x48d,0x48d,0x48d,0x48d,0x48d,0x48d,0x48d,0x48d,0x48d,";
"    0xed0,0xed7,0xedf,0x48d,0x5d8,0x5d8,0x5d8,0xee7,0xef7,0xeef,0xf0e,0xeff,0xf06,0xf16,0xf1a,0xf1e,";
"    0x48d,0x48d,0x48d,0x48d,0x8ce,0x5d8,0xf26,0xf2e,0x5d8,0xf36,0xf3e,0xf42,0xf4a,0x5d8,0xf52,0x48d,";
"    0x565,0x56f,0xf5a,0x5d8,0xf5e,0xf66,0xf76,0xf6e,0x5d8,0xf7e,0x5d8,0xf85,0x48d,0x48d,0x48d,0x48d,";
"    0x5d8,0x5d8,0x5d8,0x5d8,0x5d8,0x5d8,0x5d8,0x5d8,0x5d8,0xb78,0x8da,0xe72,0x48d,0x48d,0x48d,0x48d,";
"    0xf95,0xf8d,0xf98,0xfa0,0x8ee,0xfa8,0x48d,0xfb0,0xfb8,0xfc0,0x48d,0x48d,0x5d8,0xfd0,0xfd8,0xfc8,";
"    0xfe8,0xfef,0xfe0,0xff7,0xfff,0x48d,0x100f,0x1007,0x5d8,0x1012,0x101a,0x1022,0x102a,0x1032,0x48d,0x48d,";
"    0x5d8,0x5d8,0x103a,0x48d,0x565,0x1042,0x50d,0x104a,0x5d8,0x1052,0x48d,0x48d,0x48d,0x48d,0x48d,0x48d,";
"    0x48d,0x48d,0x48d,0x105a,0x5d8,0x1062,0x48d,0x48d,0x106a,0x1072,0x1079,0x48d,0x48d,0xe68,0x1081,0xb78,";
"    0x1091,0x60e,0x1099,0x1089,0x967,0x10a1,0x10a9,0x10af,0x10c7,0x10b7,0x10bf,0x10cb,0x967,0x10db,0x10d3,0x10e3,";
"    0x10f3,0x10eb,0x48d,0x48d,0x10fa,0x1102,0x630,0x110a,0x111a,0x1120,0x1128,0x1112,0x48d,0x48d,0x48d,0x48d,";
"    0x5d8,0x1130,0x1138,0x1140,0x5d8,0x1148,0x1150,0x48d,0x48d,0x48d,0x48d,0x48d,0x5d8,0x1158,0x1160,0x48d,";
"    0x5d8,0x1168,0x1170,0x1178,0x5d8,0x1188,0x1180,0x48d,0x848,0x1190,0x48d,0x48d,0x48d,0x48d,0x48d,0x48d,";
"    0x5d8,0x1198,0x48d,0x48d,0x48d,0x565,0x50d,0x11a0,0x11b0,0x11b6,0x11a8,0x48d,0x48d,0x11c6,0x11ca,0x11be,";
"    0x11e2,0x11d2,0x11da,0x5d8,0x11f2,0x11ea,0x5d8,0x8cf,0x48d,0x48d,0x48d,0x48d,0x48d,0x48d,0x48d,0x48d,";
"    0x1208,0x120d,0x11fa,0x1202,0x121d,0x1215,0x48d,0x48d,0x122c,0x1230,0x1224,0x1240,0x1238,0x1180,0x48d,0x48d,";
"    0x48d,0x48d,0x48d,0x48d,0x48d,0x48d,0x48d,0x1244,0x48d,0x48d,0x48d,0x48d,0x48d,0x124b,0x125b,0x1253,";
"    0x5d8,0x5d8,0x5d8,0x5d8,0x5d8,0x5d8,0x5d8,0x5d8,0x5d8,0x5d8,0x5d8,0x5d8,0x5d8,0x5d8,0x5d8,0x5d8,";
"    0x5d8,0x5d8,0x5d8,0x5d8,0x5d8,0x5d8,0x5d8,0x5d8,0x5d8,0x5d8,0x5d8,0x5d8,0x8d9,0x48d,0x48d,0x48d,";
"    0x126b,0x1273,0x127b,0x1263,0x5d8,0x5d8,0x5d8,0x5d8,0x5d8,0x5d8,0x1283,0x48d,0x48d,0x48d,0x48d,0x48d,";
"    0x48d,0x48d,0x48d,0x48d,0x48d,0x48d,0x48d,0x48d,0x48d,0x48d,0x48d,0x48d,0x48d,0x48d,0x48d,0x48d,";
"    0x5d8,0x5d8,0x5d8,0x5d8,0x5d8,0x5d8,0x5d8,0x5d8,0x5d8,0x5d8,0x5d8,0x5d8,0x5d8,0x5d8,0x5d8,0x5d8,";
"    0x5d8,0x5d8,0x5d8,0x5d8,0x5d8,0x5d8,0x5d8,0x5d8,0x5d8,0x5d8,0x5d8,0x5d8,0x5d8,0x5d8,0x5d8,0x5d8,";
"    0x5d8,0x128b,0x48d,0x48d,0x48d,0x48d,0x48d,0x48d,0x48d,0x48d,0x48d,0x48d,0x48d,0x48d,0x48d,0x48d,";
"    0x48d,0x48d,0x48d,0x48d,0x48d,0x48d,0x48d,0x48d,0x48d,0x48d,0x48d,0x48d,0x48d,0x48d,0x48d,0x48d,";
"    0x48d,0x48d,0x5d8,0x5d8,0x5d8,0x5d8,0x5d8,0x5d8,0x5d8,0x5d8,0x5d8,0x5d8,0x5d8,0x5d8,0x5d8,0x5d8,";
"    0x5d8,0x5d8,0x5d8,0x5d8,0x1293,0x48d,0x48d,0x48d,0x48d,0x48d,0x48d,0x48d,0x48d,0x48d,0x48d,0x48d,";
"    0x48d,0x48d,0x5d8,0x5d8,0x5d8,0x5d8,0x5d8,0x5d8,0x5d8,0x5d8,0x5d8,0x5d8,0x5d8,0x5d8,0x5d8,0x5d8,";
"    0x5d8,0x5d8,0x5d8,0x8cf,0x8ee,0x129b,0x48d,0x48d,0xe68,0x12a3,0x5d8,0x12b3,0x12bb,0x12c3,0x12ab,0x48d,";
"    0x48d,0x48d,0x48d,0x48d,0x48d,0x48d,0x48d,0x48d,0x48d,0x48d,0x48d,0x48d,0x48d,0x48d,0x48d,0x48d,";
"    0x48d,0x48d,0x48d,0x48d,0x565,0x50d,0x12cb,0x48d,0x48d,0x48d,0x5d8,0x5d8,0x12d3,0x12d8,0x12de,0x48d,";
"    0x48d,0x12e6,0x5d8,0x5d8,0x5d8,0x5d8,0x5d8,0x5d8,0x5d8,0x5d8,0x5d8,0x5d8,0x5d8,0x5d8,0x5d8,0x5d8,";
"    0x5d8,0x5d8,0x5d8,0x5d8,0x5d8,0x5d8,0x5d8,0x5d8,0x5d8,0x5d8,0x5d8,0x5d8,0x5d8,0x5d8,0x5d8,0x5d8,";
"    0x5d8,0x5d8,0x5d8,0x5d8,0x5d8,0x5d8,0x5d8,0x5d8,0x5d8,0x5d8,0x5d8,0x5d8,0x5d8,0x5d8,0x5d8,0x5d8,";
"    0x5d8,0x5d8,0x5d8,0x5d8,0x5d8,0x5d8,0x5d8,0x5d8,0x5d8,0x5d8,0x5d8,0x5d8,0x5d8,0x5d8,0x5d8,0x5d8,";
"    0x5d8,0x12ee,0x5d8,0x5d8,0x5d8,0x5d8,0x5d8,0x5d8,0x5d8,0x5d8,0x5d8,0x5d8,0x5d8,0x5d8,0x5d8,0x5d8,";
"    0x5d8,0x5d8,0x5d8,0x5d8,0x5d8,0x5d8,0x5d8,0x5d8,0x5d8,0x5d8,0x5d8,0x5d8,0x5d8,0x5d8,0x5d8,0x5d8,";
"    0x5d8,0x5d8,0x5d8,0x5d8,0x5d8,0x5d8,0x5d8,0x5d8,0x8da,0x48d,0x103a,0x48d,0x48d,0x48d,0x48d,0x48d,";
"    0x48d,0x48d,0x48d,0x48d,0x48d,0x48d,0x48d,0x48d,0x48d,0x48d,0x48d,0x48d,0x48d,0x48d,0x48d,0x48d,";
"    0x48d,0x48d,0x5d8,0x5d8,0x5d8,0x5d8,0x5d8,0x5d8,0x5d8,0x5d8,0x8ee,0x48d,0x12f4,0x12fb,0x5d8,0x5d8,";
"    0x5d8,0x5d8,0x5d8,0x5d8,0x5d8,0x5d8,0x5d8,0x5d8,0x5d8,0xe01,0x48d,0x48d,0x48d,0x48d,0x48d,0x48d,";
"    0x48d,0x48d,0x48d,0x48d,0x48d,0x48d,0x48d,0x48d,0x48d,0x48d,0x48d,0x48d,0x48d,0x48d,0x48d,0x48d,";
"    0x48d,0x48d,0x48d,0x48d,0x48d,0x48d,0x48d,0x48d,0x48d,0x48d,0x48d,0x48d,0x48d,0x48d,0x48d,0x48d,";
"    0x48d,0x48d,0x5d8,0x5d8,0x5d8,0x1301,0x1306,0x130e,0x48d,0x48d,0x48d,0x48d,0x48d,0x48d,0x48d,0x48d,";
"    0x48d,0x48d,0x48d,0x48d,0x48d,0x48d,0x48d,0x48d,0x48d,0x48d,0x48d,0x48d,0x48d,0x48d,0x48d,0x48d,";
"    0x48d,0x48d,0x90c,0x90c,0x90c,0x90c,0x90c,0x90c,0x90c,0xba7,0x90c,0x1316,0x90c,0x131d,0x1325,0x132b,";
"    0x90c,0x1331,0x90c,0x90c,0x1339,0x48d,0x48d,0x48d,0x48d,0x1341,0x90c,0x90c,0xabb,0x1349,0x48d,0x48d,";
"    0x48d,0x48d,0x1359,0x1360,0x1365,0x136b,0x1373,0x137b,0x1383,0x135d,0x138b,0x1393,0x139b,0x13a0,0x1372,0x1359,";
"    0x1360,0x135c,0x136b,0x13a8,0x135a,0x13ab,0x135d,0x13b3,0x13bb,0x13c3,0x13ca,0x13b6,0x13be,0x13c6,0x13cd,0x13b9,";
"    0x13d5,0x1351,0x90c,0x90c,0x90c,0x90c,0x90c,0x90c,0x90c,0x90c,0x90c,0x90c,0x90c,0x90c,0x90c,0x90c,";
"    0x90c,0x90c,0x534,0x13e5,0x534,0x13ec,0x13f3,0x13dd,0x48d,0x48d,0x48d,0x48d,0x48d,0x48d,0x48d,0x48d,";
"    0x48d,0x48d,0x48d,0x48d,0x48d,0x48d,0x48d,0x48d,0x48d,0x48d,0x48d,0x48d,0x48d,0x48d,0x48d,0x48d,";
"    0x48d,0x48d,0x48d,0x48d,0x48d,0x48d,0x48d,0x48d,0x48d,0x48d,0x48d,0x48d,0x48d,0x48d,0x48d,0x48d,";
"    0x48d,0x48d,0x13fa,0x1402,0x48d,0x48d,0x48d,0x48d,0x48d,0x48d,0x5d8,0x1412,0x140a,0x48d,0x48d,0x48d,";
"    0x48d,0x48d,0x48d,0x48d,0x48d,0x48d,0x48d,0x48d,0x5d8,0x141a,0x48d,0x48d,0x48d,0x48d,0x48d,0x48d,";
"    0x48d,0x48d,0x48d,0x48d,0x48d,0x48d,0x48d,0x48d,0x48d,0x48d,0x48d,0x48d,0x48d,0x48d,0x48d,0x48d,";
"    0x48d,0x48d,0x48d,0x48d,0x48d,0x48d,0x48d,0x48d,0x48d,0x48d,0x48d,0x48d,0x48d,0x48d,0x48d,0x48d,";
"    0x48d,0x48d,0x5d8,0x5d8,0x5d8,0x5d8,0x5d8,0x5d8,0x1422,0x48d,0x565,0x1432,0x142a,0x48d,0x48d,0x48d,";
"    0x48d,0x48d,0x48d,0x48d,0x48d,0x48d,0x48d,0x48d,0x48d,0x48d,0x48d,0x48d,0x48d,0x48d,0x48d,0x48d,";
"    0x48d,0x48d,0x48d,0x48d,0x48d,0x143a,0x144a,0x1442,0x48d,0x48d,0x145a,0x1452,0x48d,0x48d,0x48d,0x48d,";
"    0x48d,0x48d,0x146a,0x1472,0x147a,0x1482,0x148a,0x1492,0x48d,0x1462,0x48d,0x48d,0x48d,0x48d,0x48d,0x48d,";
"    0x48d,0x48d,0x90c,0x149a,0x90c,0x90c,0xb9f,0x149f,0x14a3,0xba7,0x14ab,0x90c,0x90c,0x90c,0x90c,0xba9,";
"    0x48d,0x14b3,0x14bb,0x14bf,0x14c7,0x14cf,0x48d,0x48d,0x48d,0x48d,0x90c,0x90c,0x90c,0x90c,0x90c,0x90c,";
"    0x90c,0x14d7,0x90c,0x90c,0x90c,0x90c,0x90c,0x90c,0x90c,0x90c,0x90c,0x90c,0x90c,0x90c,0x90c,0x90c,";
"    0x90c,0x90c,0x90c,0x90c,0x90c,0x90c,0x90c,0x90c,0x14df,0x14e7,0x90c,0x90c,0x90c,0xb9f,0x90c,0x90c,";
"    0x14ef,0x14f7,0x149a,0x90c,0x14ff,0x90c,0x1507,0x150c,0x48d,0x48d,0x90c,0x90c,0x90c,0x1514,0x90c,0x90c,";
"    0x151b,0x90c,0x90c,0x90c,0xb9f,0x1520,0x1528,0x152e,0x1533,0x48d,0x90c,0x90c,0x90c,0x90c,0x153b,0x90c,";
"    0xabe,0x117c,0x48d,0x48d,0x48d,0x48d,0x48d,0x48d,0x48d,0x48d,0x48d,0x48d,0x48d,0x48d,0x48d,0x48d,";
"    0x48d,0x48d,0x48d,0x48d,0x48d,0x48d,0x48d,0x48d,0x48d,0x48d,0x48d,0x48d,0x48d,0x48d,0x48d,0x48d,";
"    0x48d,0x48d,0x1543,0x5d8,0x5d8,0x154a,0x5d8,0x5d8,0x5d8,0x1552,0x5d8,0x155a,0x5d8,0x5d8,0x5d8,0x5d8,";
"    0x5d8,0x5d8,0x5d8,0x5d8,0x5d8,0x5d8,0x5d8,0x5d8,0x5d8,0x5d8,0x5d8,0x5d8,0x5d8,0x5d8,0x5d8,0x5d8,";
"    0x5d8,0x5d8,0x5d8,0x5d8,0x5d8,0x5d8,0x5d8,0x5d8,0x5d8,0x5d8,0x5d8,0x5d8,0x5d8,0x5d8,0x5d8,0x5d8,";
"    0x5d8,0x5d8,0x5d8,0x5d8,0x5d8,0x5d8,0x5d8,0x5d8,0x5d8,0x5d8,0x5d8,0x5d8,0x5d8,0x5d8,0x5d8,0x5d8,";
"    0x5d8,0x5d8,0xc80,0x5d8,0x5d8,0x1562,0x5d8,0x5d8,0x5d8,0x5d8,0x5d8,0x5d8,0x5d8,0x5d8,0x5d8,0x5d8,";
"    0x156a,0x1572,0x5d8,0x5d8,0x5d8,0x5d8,0x5d8,0x5d8,0x5d8,0x5d8,0x5d8,0x5d8,0x5d8,0x5d8,0x5d8,0x5d8,";
"    0x5d8,0x5d8,0x5d8,0x5d8,0x5d8,0x5d8,0x5d8,0x5d8,0x5d8,0x5d8,0x5d8,0x5d8,0x5d8,0x5d8,0x5d8,0x5d8,";
"    0x5d8,0x5d8,0x5d8,0x5d8,0x5d8,0x5d8,0x5d8,0x5d8,0x5d8,0xcbf,0x5d8,0x5d8,0x5d8,0x5d8,0x5d8,0x5d8,";
"    0x5d8,0x5d8,0x5d8,0x5d8,0x5d8,0x5d8,0x5d8,0x5d8,0x5d8,0x5d8,0x5d8,0x5d8,0x5d8,0x5d8,0x5d8,0x5d8,";
"    0x5d8,0x5d8,0x5d8,0x5d8,0x5d8,0x5d8,0x5d8,0x5d8,0x5d8,0x5d8,0x5d8,0x5d8,0x5d8,0x1579,0x5d8,0x5d8,";
"    0x5d8,0x5d8,0x5d8,0x5d8,0x5d8,0x5d8,0x5d8,0x5d8,0x5d8,0x5d8,0x5d8,0x5d8,0x5d8,0x5d8,0x5d8,0x5d8,";
"    0x5d8,0x5d8,0x5d8,0x5d8,0x5d8,0x5d8,0x5d8,0x5d8,0x5d8,0x5d8,0x5d8,0x5d8,0x5d8,0x5d8,0x5d8,0x5d8,";
"    0x5d8,0x5d8,0x5d8,0x5d8,0x5d8,0x5d8,0x5d8,0x5d8,0x5d8,0x5d8,0x5d8,0x5d8,0x5d8,0x5d8,0x5d8,0x5d8,";
"    0x5d8,0x1580,0x5d8,0x5d8,0x5d8,0x5d8,0x5d8,0x5d8,0x5d8,0x5d8,0x5d8,0x5d8,0x5d8,0x5d8,0x5d8,0x5d8,";
"    0x5d8,0x5d8,0x5d8,0x5d8,0x5d8,0x5d8,0x5d8,0x5d8,0x5d8,0x5d8,0x5d8,0x5d8,0x5d8,0x5d8,0x5d8,0x5d8,";
"    0x5d8,0x5d8,0x5d8,0x5d8,0x5d8,0x5d8,0x5d8,0x5d8,0x5d8,0x1587,0x5d8,0x5d8,0x5d8,0x5d8,0x5d8,0x5d8,";
"    0x5d8,0x5d8,0x5d8,0x5d8,0x5d8,0x5d8,0x5d8,0x5d8,0x5d8,0x5d8,0x5d8,0x5d8,0x5d8,0x5d8,0x5d8,0x5d8,";
"    0x5d8,0x5d8,0x5d8,0x5d8,0x5d8,0x5d8,0x5d8,0x5d8,0x5d8,0x5d8,0x5d8,0x5d8,0x5d8,0x5d8,0x5d8,0x5d8,";
"    0x5d8,0x5d8,0x5d8,0x5d8,0x5d8,0x5d8,0x5d8,0x5d8,0x5d8,0x5d8,0x5d8,0x5d8,0x5d8,0x5d8,0x5d8,0x5d8,";
"    0xf5e,0x48d,0x5d8,0x5d8,0x5d8,0x5d8,0x5d8,0x5d8,0x5d8,0x5d8,0x5d8,0x5d8,0x5d8,0x5d8,0x5d8,0x5d8,";
"    0x5d8,0x5d8,0x5d8,0x5d8,0x5d8,0x5d8,0x5d8,0x5d8,0x5d8,0x5d8,0x5d8,0x5d8,0x5d8,0x5d8,0x5d8,0x5d8,";
"    0x5d8,0x5d8,0x5d8,0x5d8,0x5d8,0x5d8,0x5d8,0x5d8,0x5d8,0x5d8,0x5d8,0x5d8,0x5d8,0x5d8,0x5d8,0x5d8,";
"    0x5d8,0x5d8,0x5d8,0x5d8,0x5d8,0x5d8,0x5d8,0x5d8,0x5d8,0x5d8,0x5d8,0x158b,0x5d8,0x5d8,0x5d8,0x5d8,";
"    0x5d8,0x5d8,0xf5e,0x5d8,0x5d8,0x5d8,0x5d8,0x5d8,0x5d8,0x5d8,0x5d8,0x5d8,0x5d8,0x5d8,0x5d8,0x5d8,";
"    0x5d8,0x5d8,0x5d8,0x5d8,0x5d8,0x5d8,0x5d8,0x5d8,0x5d8,0x5d8,0x5d8,0x5d8,0x5d8,0x5d8,0x5d8,0x5d8,";
"    0x5d8,0x5d8,0x5d8,0x5d8,0x5d8,0x5d8,0x5d8,0x5d8,0x5d8,0x5d8,0x5d8,0x5d8,0x5d8,0x5d8,0x5d8,0x5d8,";
"    0x5d8,0x5d8,0x5d8,0x5d8,0x5d8,0x5d8,0x5d8,0x5d8,0x5d8,0x5d8,0x5d8,0x5d8,0x5d8,0x5d8,0x5d8,0x5d8,";
"    0x5d8,0x5d8,0x1066,0x5d8,0x5d8,0x5d8,0x5d8,0x5d8,0x5d8,0x5d8,0x5d8,0x5d8,0x5d8,0x5d8,0x5d8,0x5d8,";
"    0x5d8,0x5d8,0x5d8,0x5d8,0x5d8,0x5d8,0x5d8,0x5d8,0x5d8,0x5d8,0x5d8,0x5d8,0x5d8,0x5d8,0x5d8,0x5d8,";
"    0x5d8,0x5d8,0x1590,0x48d,0x48d,0x48d,0x48d,0x48d,0x48d,0x48d,0x48d,0x48d,0x48d,0x48d,0x48d,0x48d,";
"    0x48d,0x48d,0x48d,0x48d,0x48d,0x48d,0x48d,0x48d,0x48d,0x48d,0x48d,0x48d,0x48d,0x48d,0x48d,0x48d,";
"    0x48d,0x48d,0x48d,0x5d8,0x5d8,0x5d8,0x5d8,0x1598,0x5d8,0x5d8,0x5d8,0x5d8,0x5d8,0x5d8,0x5d8,0x5d8,";
"    0x5d8,0x5d8,0x5d8,0xf5e,0x48d,0x48d,0x48d,0x48d,0x48d,0x48d,0x48d,0x48d,0x48d,0x48d,0x48d,0x48d,";
"    0x48d,0x48d,0x48d,0x48d,0x48d,0x48d,0x48d,0x48d,0x48d,0x48d,0x48d,0x48d,0x48d,0x48d,0x48d,0x48d,";
"    0x48d,0x48d,0x48d,0x48d,0x48d,0x48d,0x48d,0x48d,0x48d,0x48d,0x48d,0x48d,0x48d,0x48d,0x48d,0x48d,";
"    0x48d,0x48d,0x48d,0x5d8,0x5d8,0x5d8,0x5d8,0x5d8,0x5d8,0x5d8,0x5d8,0x5d8,0x5d8,0x5d8,0x5d8,0x5d8,";
"    0x5d8,0x5d8,0x5d8,0x5d8,0x5d8,0x5d8,0x5d8,0x5d8,0x5d8,0x5d8,0x5d8,0x5d8,0x5d8,0x655,0x48d,0x48d,";
"    0x48d,0x48d,0x48d,0x48d,0x48d,0x48d,0x48d,0x48d,0x48d,0x48d,0x48d,0x48d,0x48d,0x48d,0x48d,0x48d,";
"    0x48d,0x48d,0x48d,0x48d,0x48d,0x48d,0x48d,0x48d,0x48d,0x48d,0x48d,0x48d,0x48d,0x48d,0x48d,0x48d,";
"    0x48d,0x48d,0x48d,0x15a8,0x15a0,0x15a0,0x15a0,0x48d,0x48d,0x48d,0x48d,0x534,0x534,0x534,0x534,0x534,";
"    0x534,0x534,0x15b0,0x48d,0x48d,0x48d,0x48d,0x48d,0x48d,0x48d,0x48d,0x48d,0x48d,0x48d,0x48d,0x48d,";
"    0x48d,0x48d,0x48d,0x48d,0x48d,0x48d,0x48d,0x48d,0x48d,0x48d,0x48d,0x48d,0x48d,0x48d,0x48d,0x48d,";
"    0x48d,0x48d,0x48d,0x48d,0x48d,0x48d,0x48d,0x48d,0x48d,0x48d,0x48d,0x48d,0x48d,0x48d,0x48d,0x48d,";
"    0x48d,0x48d,0x48d,0xe19,0xe19,0xe19,0xe19,0xe19,0xe19,0xe19,0xe19,0xe19,0xe19,0xe19,0xe19,0xe19,";
"    0xe19,0xe19,0xe19,0xe19,0xe19,0xe19,0xe19,0xe19,0xe19,0xe19,0xe19,0xe19,0xe19,0xe19,0xe19,0xe19,";
"    0xe19,0xe19,0xe19,0xe19,0xe19,0xe19,0xe19,0xe19,0xe19,0xe19,0xe19,0xe19,0xe19,0xe19,0xe19,0xe19,";
"    0xe19,0xe19,0xe19,0xe19,0xe19,0xe19,0xe19,0xe19,0xe19,0xe19,0xe19,0xe19,0xe19,0xe19,0xe19,0xe19,";
"    0xe19,0xe19,0x15b8,0x46c,0xf,0xf,0xf,0xf,0xf,0xf,0xf,0xf,0xf,0xf,0xf,0xf,";
"    0xf,0xf,0xf,0xf,0xf,0xf,0xf,0xf,0xf,0xf,0xf,0xf,0xf,0xf,0xf,0xf,";
"    0xf,0xf,0xf,0xf,0xc,0x17,0x17,0x17,0x19,0x17,0x17,0x17,0x14,0x15,0x17,0x18,";
"    0x17,0x13,0x17,0x17,0x49,0x89,0xc9,0x109,0x149,0x189,0x1c9,0x209,0x249,0x289,0x17,0x17,";
"    0x18,0x18,0x18,0x17,0x17,1,1,1,1,1,1,1,1,1,1,1,";
"    1,1,1,1,1,1,1,1,1,1,1,1,1,1,1,0x14,";
"    0x17,0x15,0x1a,0x16,0x1a,2,2,2,2,2,2,2,2,2,2,2,";
"    2,2,2,2,2,2,2,2,2,2,2,2,2,2,2,0x14,";
"    0x18,0x15,0x18,0xf,0,0,0,0,0,0,0,0,0,0,0,0,";
"    0,0,0,0,0,0,0,0,0,0,0,0,0,0,0,0,";
"    0,0,0,0,0,0,0,0,0,0,0,0,0,0,0,0,";
"    0,0,0,0,0,0,0,0,0,0,0,0,0,0,0,0,";
"    0,0,0,0,0xf,0xf,0xf,0xf,0xf,0xf,0xf,0xf,0xf,0xf,0xf,0xf,";
"    0xf,0xf,0xf,0xf,0xf,0xf,0xf,0xf,0xf,0xf,0xf,0xf,0xf,0xf,0xf,0xf,";
"    0xf,0xf,0xf,0xf,0xc,0x17,0x19,0x19,0x19,0x19,0x1b,0x17,0x1a,0x1b,5,0x1c,";
"    0x18,0x10,0x1b,0x1a,0x1b,0x18,0x34b,0x38b,0x1a,2,0x17,0x17,0x1a,0x30b,5,0x1d,";
"    0x34cb,0x344b,0x3ccb,0x17,1,1,1,1,1,1,1,1,1,1,1,1,";
"    1,1,1,1,1,1,1,1,1,1,1,0x18,1,1,1,1,";
"    1,1,1,2,2,2,2,2,2,2,2,2,2,2,2,2,";
"    2,2,2,2,2,2,2,2,2,2,2,0x18,2,2,2,2,";
"    2,2,2,2,1,2,1,2,1,2,1,2,1,2,1,2,";
"    1,2,1,2,1,2,1,2,1,2,1,2,1,2,1,2,";
"    1,2,1,2,1,2,1,2,1,2,1,2,1,2,1,2,";
"    1,2,1,2,1,2,1,2,1,2,1,2,2,1,2,1,";
"    2,1,2,1,2,2,1,2,1,2,1,2,1,2,1,2,";
"    1,2,1,2,1,2,1,2,1,2,1,2,1,2,1,2,";
"    1,2,1,2,1,2,1,2,1,2,1,2,1,2,1,2,";
"    1,2,1,2,1,1,2,1,2,1,2,2,2,1,1,2,";
"    1,2,1,1,2,1,1,1,2,2,1,1,1,1,2,1,";
"    1,2,1,1,1,2,2,2,1,1,2,1,1,2,1,2,";
"    1,2,1,1,2,1,2,2,1,2,1,1,2,1,1,1,";
"    2,1,2,1,1,2,2,5,1,2,2,2,5,5,5,5,";
"    1,3,2,1,3,2,1,3,2,1,2,1,2,1,2,1,";
"    2,1,2,1,2,1,2,1,2,2,1,2,1,2,1,2,";
"    1,2,1,2,1,2,1,2,1,2,1,2,2,1,3,2,";
"    1,2,1,1,1,2,1,2,1,2,1,2,1,2,1,2,";
"    1,2,1,2,1,2,1,2,1,2,1,2,1,2,1,2,";
"    1,2,1,2,1,2,1,2,1,2,1,2,1,2,1,2,";
"    1,2,1,2,1,2,1,2,2,2,2,2,2,2,1,1,";
"    2,1,1,2,2,1,2,1,1,1,1,2,1,2,1,2,";
"    1,2,1,2,2,2,2,2,2,2,2,2,2,2,2,2,";
"    2,2,2,2,2,2,2,2,2,2,2,2,2,2,2,2,";
"    2,2,2,2,2,2,2,2,2,2,2,2,2,2,2,2,";
"    2,2,2,2,5,2,2,2,2,2,2,2,2,2,2,2,";
"    2,2,2,2,2,2,2,2,2,2,2,2,2,2,2,2,";
"    4,4,4,4,4,4,4,4,4,4,4,4,4,4,4,4,";
"    4,4,0x1a,0x1a,0x1a,0x1a,4,4,4,4,4,4,4,4,4,4,";
"    4,4,0x1a,0x1a,0x1a,0x1a,0x1a,0x1a,0x1a,0x1a,0x1a,0x1a,0x1a,0x1a,0x1a,0x1a,";
"    4,4,4,4,4,0x1a,0x1a,0x1a,0x1a,0x1a,0x1a,0x1a,4,0x1a,4,0x1a,";
"    0x1a,0x1a,0x1a,0x1a,0x1a,0x1a,0x1a,0x1a,0x1a,0x1a,0x1a,0x1a,0x1a,0x1a,0x1a,0x1a,";
"    6,6,6,6,6,6,6,6,6,6,6,6,6,6,6,6,";
"    6,6,6,6,6,6,6,6,6,6,6,6,6,6,6,6,";
"    6,6,6,6,6,6,6,6,6,6,6,6,6,6,6,6,";
"    6,6,6,6,6,6,6,6,6,6,6,6,6,6,6,6,";
"    1,2,1,2,4,0x1a,1,2,0,0,4,2,2,2,0x17,1,";
"    0,0,0,0,0x1a,0x1a,1,0x17,1,1,1,0,1,0,1,1,";
"    2,1,1,1,1,1,1,1,1,1,1,1,1,1,1,1,";
"    1,1,0,1,1,1,1,1,1,1,1,1,2,2,2,2,";
"    2,2,2,2,2,2,2,2,2,2,2,2,2,2,2,2,";
"    2,2,2,1,2,2,1,1,1,2,2,2,1,2,1,2,";
"    1,2,1,2,1,2,1,2,1,2,1,2,1,2,1,2,";
"    1,2,1,2,2,2,2,2,1,2,0x18,1,2,1,1,2,";
"    2,1,1,1,1,1,1,1,1,1,1,1,1,1,1,1,";
"    1,1,1,1,1,1,1,1,1,1,1,1,1,1,1,1,";
"    1,1,1,1,1,1,1,1,1,1,1,1,1,1,1,1,";
"    1,1,1,1,2,2,2,2,2,2,2,2,2,2,2,2,";
"    2,2,2,2,2,2,2,2,2,2,2,2,2,2,2,2,";
"    2,2,2,2,1,2,1,2,1,2,1,2,1,2,1,2,";
"    1,2,1,2,1,2,1,2,1,2,1,2,1,2,1,2,";
"    1,2,1,2,1,2,0x1b,6,6,6,6,6,7,7,1,2,";
"    1,2,1,2,1,2,1,2,1,2,1,2,1,2,1,2,";
"    1,2,1,2,1,2,1,2,1,2,1,2,1,2,1,2,";
"    1,2,1,2,1,2,1,2,1,2,1,2,1,2,1,2,";
"    1,2,1,2,1,1,2,1,2,1,2,1,2,1,2,1,";
"    2,1,2,2,1,2,1,2,1,2,1,2,1,2,1,2,";
"    1,2,1,2,1,2,1,2,1,2,1,2,1,2,1,2,";
"    1,2,1,2,1,2,1,2,1,2,1,2,1,2,1,2,";
"    1,2,1,2,0,1,1,1,1,1,1,1,1,1,1,1,";
"    1,1,1,1,1,1,1,1,1,1,1,1,1,1,1,0,";
"    0,4,0x17,0x17,0x17,0x17,0x17,0x17,2,2,2,2,2,2,2,2,";
"    2,2,2,2,2,2,2,2,2,2,2,2,2,2,2,2,";
"    2,2,2,2,2,2,2,2,2,0x17,0x13,0,0,0x1b,0x1b,0x19,";
"    0,6,6,6,6,6,6,6,6,6,6,6,6,6,6,6,";
"    6,6,6,6,6,6,6,6,6,6,6,6,6,6,6,6,";
"    6,6,6,6,6,6,6,6,6,6,6,6,6,6,0x13,6,";
"    0x17,6,6,0x17,6,6,0x17,6,0,0,0,0,0,0,0,0,";
"    5,5,5,5,5,5,5,5,5,5,5,5,5,5,5,5,";
"    5,5,5,5,5,5,5,5,5,5,5,0,0,0,0,5,";
"    5,5,5,0x17,0x17,0,0,0,0,0,0,0,0,0,0,0,";
"    0x10,0x10,0x10,0x10,0x10,0x10,0x18,0x18,0x18,0x17,0x17,0x19,0x17,0x17,0x1b,0x1b,";
"    6,6,6,6,6,6,6,6,6,6,6,0x17,0x10,0,0x17,0x17,";
"    5,5,5,5,5,5,5,5,5,5,5,5,5,5,5,5,";
"    5,5,5,5,5,5,5,5,5,5,5,5,5,5,5,5,";
"    4,5,5,5,5,5,5,5,5,5,5,6,6,6,6,6,";
"    6,6,6,6,6,6,6,6,6,6,6,6,6,6,6,6,";
"    0x49,0x89,0xc9,0x109,0x149,0x189,0x1c9,0x209,0x249,0x289,0x17,0x17,0x17,0x17,5,5,";
"    6,5,5,5,5,5,5,5,5,5,5,5,5,5,5,5,";
"    5,5,5,5,5,5,5,5,5,5,5,5,5,5,5,5,";
"    5,5,5,5,5,5,5,5,5,5,5,5,5,5,5,5,";
"    5,5,5,5,5,5,5,5,5,5,5,5,5,5,5,5,";
"    5,5,5,5,0x17,5,6,6,6,6,6,6,6,0x10,0x1b,6,";
"    6,6,6,6,6,4,4,6,6,0x1b,6,6,6,6,5,5,";
"    0x49,0x89,0xc9,0x109,0x149,0x189,0x1c9,0x209,0x249,0x289,5,5,5,0x1b,0x1b,5,";
"    0x17,0x17,0x17,0x17,0x17,0x17,0x17,0x17,0x17,0x17,0x17,0x17,0x17,0x17,0,0x10,";
"    5,6,5,5,5,5,5,5,5,5,5,5,5,5,5,5,";
"    5,5,5,5,5,5,5,5,5,5,5,5,5,5,5,5,";
"    6,6,6,6,6,6,6,6,6,6,6,6,6,6,6,6,";
"    6,6,6,0,0,5,5,5,5,5,5,5,5,5,5,5,";
"    5,5,5,5,5,5,5,5,5,5,5,5,5,5,5,5,";
"    5,5,5,5,5,5,5,5,5,5,5,5,5,5,5,5,";
"    5,5,5,5,5,5,5,5,5,5,6,6,6,6,6,6,";
"    6,6,6,6,6,5,0,0,0,0,0,0,0,0,0,0,";
"    0,0,0,0,0x49,0x89,0xc9,0x109,0x149,0x189,0x1c9,0x209,0x249,0x289,5,5,";
"    5,5,5,5,5,5,5,5,5,5,5,5,5,5,5,5,";
"    5,5,5,5,5,5,5,5,5,5,5,5,5,5,5,6,";
"    6,6,6,6,6,6,6,6,4,4,0x1b,0x17,0x17,0x17,4,0,";
"    0,6,0x19,0x19,6,6,6,6,4,6,6,6,4,6,6,6,";
"    6,6,0,0,0x17,0x17,0x17,0x17,0x17,0x17,0x17,0x17,0x17,0x17,0x17,0x17,";
"    0x17,0x17,0x17,0,5,5,5,5,5,5,5,5,5,5,5,5,";
"    5,5,5,5,5,5,5,5,5,5,6,6,6,6,4,6,";
"    6,6,6,6,5,5,5,5,5,5,5,5,5,5,5,5,";
"    5,5,5,5,5,5,5,5,5,5,5,5,5,6,6,6,";
"    0,0,0x17,0,5,5,5,5,5,5,5,5,5,5,5,0,";
"    0,0,0,0,0,0,0,0,0,0,0,0,0,0,0,0,";
"    0,0,0,0,6,6,0x10,6,6,6,6,6,6,6,6,6,";
"    6,6,6,6,6,6,6,6,6,6,6,6,6,6,6,6,";
"    6,6,6,6,5,5,5,5,5,5,5,5,5,5,5,5,";
"    5,5,5,5,5,5,5,5,5,0,5,5,5,5,5,5,";
"    5,5,5,5,0,0,0,0,0,0,0,0,0,0,0,6,";
"    6,6,6,6,6,6,6,6,6,6,6,6,5,5,6,6,";
"    0x17,0x17,0x49,0x89,0xc9,0x109,0x149,0x189,0x1c9,0x209,0x249,0x289,0x17,4,5,5,";
"    5,5,5,5,5,5,5,5,5,5,5,5,6,6,6,8,";
"    5,5,5,5,5,5,5,5,5,5,5,5,5,5,5,5,";
"    5,5,5,5,5,5,5,5,5,5,5,5,5,5,6,8,";
"    6,5,8,8,8,6,6,6,6,6,6,6,6,8,8,8,";
"    8,6,8,8,5,6,6,6,6,6,6,6,5,5,5,5,";
"    5,5,5,5,5,5,6,6,0,0,0x49,0x89,0xc9,0x109,0x149,0x189,";
"    0x1c9,0x209,0x249,0x289,5,5,0x19,0x19,0x37cb,0x35cb,0x3fcb,0x34cb,0x3ccb,0x94b,0x1b,0x19,";
"    5,0x17,6,0,5,6,8,8,0,5,5,5,5,5,5,5,";
"    5,0,0,5,5,0,0,5,5,5,5,5,5,5,5,5,";
"    5,5,5,5,5,0,5,5,5,5,5,5,5,0,5,0,";
"    0,0,5,5,5,5,0,0,6,5,8,8,8,6,6,6,";
"    6,0,0,8,8,0,0,8,8,6,5,0,0,0,0,0,";
"    0,0,0,8,0,0,0,0,5,5,0,5,0,0,0,0,";
"    0,0,0x49,0x89,0xc9,0x109,0x149,0x189,0x1c9,0x209,0x249,0x289,6,6,5,5,";
"    5,6,0x17,0,0,0,0,0,0,0,0,0,0,6,6,8,";
"    0,5,5,5,5,5,5,0,0,0,0,5,5,0,0,5,";
"    5,5,5,5,5,5,5,5,5,5,5,5,5,0,5,5,";
"    5,5,5,5,5,0,5,5,0,5,5,0,5,5,0,0,";
"    6,0,8,8,8,6,6,0,0,0,0,6,6,0,0,6,";
"    6,6,0,0,0,6,0,0,0,0,0,0,0,5,5,5,";
"    5,0,5,0,5,5,6,6,0,0,0x49,0x89,0xc9,0x109,0x149,0x189,";
"    0x1c9,0x209,0x249,0x289,0x17,0x19,0,0,0,0,0,0,0,5,6,6,";
"    6,6,6,6,0,6,6,8,0,5,5,5,5,5,5,5,";
"    5,5,0,5,5,5,0,5,5,5,5,5,5,5,5,5,";
"    5,5,5,5,5,0,5,5,5,5,5,5,5,0,5,5,";
"    0,5,5,5,5,5,0,0,6,5,8,8,8,6,6,6,";
"    6,6,0,6,6,8,0,8,8,6,0,0,5,0,0,0,";
"    0,0,0,0,0,0,0,0,0,0,0,0,5,5,6,6,";
"    0,0,0x49,0x89,0xc9,0x109,0x149,0x189,0x1c9,0x209,0x249,0x289,0x1b,5,0x34cb,0x344b,";
"    0x3ccb,0x37cb,0x35cb,0x3fcb,0,0,0,0,0,0,0,0,0,6,8,8,";
"    0,5,5,5,5,5,5,5,5,0,0,5,5,0,0,5,";
"    5,5,5,5,5,5,5,5,5,5,5,5,5,0,5,5,";
"    5,5,5,5,5,0,5,5,0,5,5,5,5,5,0,0,";
"    6,5,8,6,8,6,6,6,6,0,0,8,8,0,0,8,";
"    8,6,0,0,0,0,0,0,0,6,6,8,0,0,0,0,";
"    5,5,0,5,0,0,0,0,0,0,0x49,0x89,0xc9,0x109,0x149,0x189,";
"    0x1c9,0x209,0x249,0x289,0x7cb,0x1e4b,0x784b,0x1b,0x1b,0x1b,0x1b,0x1b,0x1b,0x19,0x1b,0,";
"    0,0,0,0,0,0,6,5,0,5,5,5,5,5,5,0,";
"    0,0,5,5,5,0,5,5,5,5,0,0,0,5,5,0,";
"    5,0,5,5,0,0,0,5,5,0,0,0,5,5,5,0,";
"    0,0,5,5,5,5,5,5,5,5,5,5,5,5,0,0,";
"    0,0,8,8,6,8,8,0,0,0,8,8,8,0,8,8,";
"    8,6,0,0,5,0,0,0,0,0,0,8,0,0,0,0,";
"    0,0,0,0,5,5,6,6,0,0,0x49,0x89,0xc9,0x109,0x149,0x189,";
"    0x1c9,0x209,0x249,0x289,0,0,0,0,0,0,0,0x17,0x54b,0x58b,0x5cb,0x60b,";
"    0x58b,0x5cb,0x60b,0x1b,6,8,8,8,6,5,5,5,5,5,5,5,";
"    5,0,5,5,5,0,5,5,5,5,5,5,5,5,5,5,";
"    5,5,5,5,5,0,5,5,5,5,5,5,5,5,5,5,";
"    5,5,5,5,5,5,0,0,0,5,6,6,6,8,8,8,";
"    8,0,6,6,6,0,6,6,6,6,0,0,0,0,0,0,";
"    0,6,6,0,5,5,5,0,0,0,0,0,5,5,6,6,";
"    0,0,0x49,0x89,0xc9,0x109,0x149,0x189,0x1c9,0x209,0x249,0x289,0,5,5,0,";
"    0,0,0,0,0,0,0,0,0,0,0,0,5,6,8,8,";
"    0x17,5,5,5,5,5,5,5,5,0,5,5,5,0,5,5,";
"    5,5,5,5,5,5,5,5,5,5,5,5,5,0,5,5,";
"    5,5,5,5,5,5,5,5,0,5,5,5,5,5,0,0,";
"    6,5,8,6,8,8,8,8,8,0,6,8,8,0,8,8,";
"    6,6,0,0,0,0,0,0,0,8,8,0,0,0,0,0,";
"    0,0,5,0,5,5,6,6,0,0,0x49,0x89,0xc9,0x109,0x149,0x189,";
"    0x1c9,0x209,0x249,0x289,0x7cb,0x1e4b,0x784b,0x34cb,0x344b,0x3ccb,0x37cb,0x35cb,0x3fcb,0x1b,5,5,";
"    5,5,5,5,6,6,8,8,5,5,5,5,5,5,5,5,";
"    5,0,5,5,5,0,5,5,5,5,5,5,5,5,5,5,";
"    5,5,5,5,5,5,5,5,5,5,5,5,5,5,5,5,";
"    5,5,5,6,6,5,8,8,8,6,6,6,6,0,8,8,";
"    8,0,8,8,8,6,5,0x1b,0,0,0,0,5,5,5,8,";
"    0xcc0b,0xca0b,0xcb4b,0xc90b,0x364b,0xc94b,0x350b,5,0,0,0,0,0,0,0x49,0x89,";
"    0xc9,0x109,0x149,0x189,0x1c9,0x209,0x249,0x289,0,0,8,8,0x17,0,0,0,";
"    0,0,0,0,0,0,0,0,0,6,8,8,0,5,5,5,";
"    5,5,5,5,5,5,5,5,5,5,5,5,5,5,5,0,";
"    0,0,5,5,5,5,5,5,5,5,5,5,5,5,5,5,";
"    5,5,5,5,5,5,0,5,5,5,5,5,5,5,5,5,";
"    0,5,0,0,5,5,5,5,5,5,5,0,0,0,6,0,";
"    0,0,0,8,8,8,6,6,6,0,6,0,8,8,8,8,";
"    8,8,8,8,5,5,5,5,5,5,5,5,5,5,5,5,";
"    5,5,5,5,5,6,5,5,6,6,6,6,6,6,6,0,";
"    0,0,0,0x19,5,5,5,5,5,5,4,6,6,6,6,6,";
"    6,6,6,0x17,0x49,0x89,0xc9,0x109,0x149,0x189,0x1c9,0x209,0x249,0x289,0x17,0x17,";
"    0,0,0,0,0,5,5,0,5,0,5,5,5,5,5,0,";
"    5,5,5,5,5,5,5,5,5,5,5,5,5,5,5,5,";
"    5,5,5,5,0,5,0,5,5,5,5,5,5,5,5,5,";
"    5,6,5,5,6,6,6,6,6,6,6,6,6,5,0,0,";
"    5,5,5,5,5,0,4,0,6,6,6,6,6,6,0,0,";
"    0x49,0x89,0xc9,0x109,0x149,0x189,0x1c9,0x209,0x249,0x289,0,0,5,5,5,5,";
"    5,0x1b,0x1b,0x1b,0x17,0x17,0x17,0x17,0x17,0x17,0x17,0x17,0x17,0x17,0x17,0x17,";
"    0x17,0x17,0x17,0x1b,0x17,0x1b,0x1b,0x1b,6,6,0x1b,0x1b,0x1b,0x1b,0x1b,0x1b,";
"    0x49,0x89,0xc9,0x109,0x149,0x189,0x1c9,0x209,0x249,0x289,0x344b,0x3c4b,0x444b,0x4c4b,0x544b,0x5c4b,";
"    0x644b,0x6c4b,0x744b,0x2c4b,0x1b,6,0x1b,6,0x1b,6,0x14,0x15,0x14,0x15,8,8,";
"    5,5,5,5,5,5,5,5,0,5,5,5,5,5,5,5,";
"    5,5,5,5,5,5,5,5,5,5,5,5,5,5,5,5,";
"    5,0,0,0,0,6,6,6,6,6,6,6,6,6,6,6,";
"    6,6,6,8,6,6,6,6,6,0x17,6,6,5,5,5,5,";
"    5,6,6,6,6,6,6,6,6,6,6,6,0,6,6,6,";
"    6,6,6,6,6,6,6,6,6,6,6,6,6,6,6,6,";
"    6,6,6,6,6,6,6,6,6,6,6,6,6,0,0x1b,0x1b,";
"    0x1b,0x1b,0x1b,0x1b,0x1b,0x1b,6,0x1b,0x1b,0x1b,0x1b,0x1b,0x1b,0,0x1b,0x1b,";
"    0x17,0x17,0x17,0x17,0x17,0x1b,0x1b,0x1b,0x1b,0x17,0x17,0,0,0,0,0,";
"    5,5,5,5,5,5,5,5,5,5,5,8,8,6,6,6,";
"    6,8,6,6,6,6,6,6,8,6,6,8,8,6,6,5,";
"    0x49,0x89,0xc9,0x109,0x149,0x189,0x1c9,0x209,0x249,0x289,0x17,0x17,0x17,0x17,0x17,0x17,";
"    5,5,5,5,5,5,8,8,6,6,5,5,5,5,6,6,";
"    6,5,8,8,8,5,5,8,8,8,8,8,8,8,5,5,";
"    5,6,6,6,6,5,5,5,5,5,5,5,5,5,5,5,";
"    5,5,6,8,8,6,6,8,8,8,8,8,8,6,5,8,";
"    0x49,0x89,0xc9,0x109,0x149,0x189,0x1c9,0x209,0x249,0x289,8,8,8,6,0x1b,0x1b,";
"    2,2,2,2,2,2,2,2,2,2,2,2,2,2,2,2,";
"    2,2,2,2,2,2,2,2,2,2,2,0x17,4,2,2,2,";
"    1,1,1,1,1,1,0,1,0,0,0,0,0,1,0,0,";
"    2,2,2,2,2,2,2,2,2,2,2,2,2,2,2,2,";
"    5,5,5,5,5,5,5,5,5,0,5,5,5,5,0,0,";
"    5,5,5,5,5,5,5,0,5,0,5,5,5,5,0,0,";
"    5,5,5,5,5,5,5,5,5,0,5,5,5,5,0,0,";
"    5,5,5,5,5,5,5,5,5,5,5,5,5,5,5,5,";
"    5,0,5,5,5,5,0,0,5,5,5,5,5,5,5,0,";
"    5,0,5,5,5,5,0,0,5,5,5,5,5,5,5,5,";
"    5,5,5,5,5,5,5,0,5,5,5,5,5,5,5,5,";
"    5,5,5,5,5,5,5,5,5,0,5,5,5,5,0,0,";
"    5,5,5,5,5,5,5,5,5,5,5,5,5,5,5,5,";
"    5,5,5,5,5,5,5,5,5,5,5,0,0,6,6,6,";
"    0x17,0x17,0x17,0x17,0x17,0x17,0x17,0x17,0x17,0x30b,0x34b,0x38b,0x3cb,0x40b,0x44b,0x48b,";
"    0x4cb,0x50b,0x7cb,0xa4b,0xccb,0xf4b,0x11cb,0x144b,0x16cb,0x194b,0x1bcb,0x1e4b,0x788b,0,0,0,";
"    5,5,5,5,5,5,5,5,5,5,5,5,5,5,5,5,";
"    0x1b,0x1b,0x1b,0x1b,0x1b,0x1b,0x1b,0x1b,0x1b,0x1b,0,0,0,0,0,0,";
"    1,1,1,1,1,1,1,1,1,1,1,1,1,1,1,1,";
"    1,1,1,1,1,1,0,0,2,2,2,2,2,2,0,0,";
"    0x13,5,5,5,5,5,5,5,5,5,5,5,5,5,5,5,";
"    5,5,5,5,5,5,5,5,5,5,5,5,5,5,5,5,";
"    5,0x1b,0x17,5,5,5,5,5,5,5,5,5,5,5,5,5,";
"    5,5,5,5,0xc,5,5,5,5,5,5,5,5,5,5,5,";
"    5,5,5,5,5,5,5,5,5,5,5,5,5,5,5,0x14,";
"    0x15,0,0,0,5,5,5,5,5,5,5,5,5,5,5,0x17,";
"    0x17,0x17,0x98a,0x9ca,0xa0a,5,5,5,5,5,5,5,5,0,0,0,";
"    0,0,0,0,5,5,5,5,5,5,5,5,5,5,5,5,";
"    5,0,5,5,5,5,6,6,6,0,0,0,0,0,0,0,";
"    0,0,0,0,5,5,5,5,5,5,5,5,5,5,5,5,";
"    5,5,5,5,5,5,6,6,6,0x17,0x17,0,0,0,0,0,";
"    0,0,0,0,5,5,5,5,5,5,5,5,5,5,5,5,";
"    5,5,5,5,5,5,6,6,0,0,0,0,0,0,0,0,";
"    0,0,0,0,5,5,5,5,5,5,5,5,5,5,5,5,";
"    5,0,5,5,5,0,6,6,0,0,0,0,0,0,0,0,";
"    0,0,0,0,5,5,5,5,5,5,5,5,5,5,5,5,";
"    5,5,5,5,5,5,5,5,6,6,8,6,6,6,6,6,";
"    6,6,8,8,8,8,8,8,8,8,6,8,8,6,6,6,";
"    6,6,6,6,6,6,6,6,0x17,0x17,0x17,4,0x17,0x17,0x17,0x19,";
"    5,6,0,0,0x49,0x89,0xc9,0x109,0x149,0x189,0x1c9,0x209,0x249,0x289,0,0,";
"    0,0,0,0,0x54b,0x58b,0x5cb,0x60b,0x64b,0x68b,0x6cb,0x70b,0x74b,0x78b,0,0,";
"    0,0,0,0,5,5,5,5,5,5,5,5,5,6,5,0,";
"    0,0,0,0,5,5,5,5,5,5,5,5,5,5,5,5,";
"    5,5,5,5,0x17,0x17,0x17,0x17,0x17,0x17,0x13,0x17,0x17,0x17,0x17,6,";
"    6,6,0x10,0,0x49,0x89,0xc9,0x109,0x149,0x189,0x1c9,0x209,0x249,0x289,0,0,";
"    0,0,0,0,5,5,5,4,5,5,5,5,5,5,5,5,";
"    5,5,5,5,5,5,5,5,5,5,5,5,5,5,5,5,";
"    5,5,5,5,5,0,0,0,0,0,0,0,5,5,5,5,";
"    5,6,6,5,5,5,5,5,5,5,5,5,5,5,5,5,";
"    5,5,5,5,5,5,5,5,5,5,5,5,5,5,0,0,";
"    0,0,0,0,0,0,0,0,6,6,6,8,8,8,8,6,";
"    6,8,8,8,0,0,0,0,8,8,6,8,8,8,8,8,";
"    8,6,6,6,0,0,0,0,0x1b,0,0,0,0x17,0x17,0x49,0x89,";
"    0xc9,0x109,0x149,0x189,0x1c9,0x209,0x249,0x289,5,5,5,5,5,5,5,5,";
"    5,5,5,5,5,5,5,5,5,5,5,5,5,5,5,5,";
"    5,5,5,5,5,5,5,0,5,5,5,5,5,5,5,5,";
"    5,5,5,5,5,5,0,0,5,5,5,5,5,0,0,0,";
"    0,0,0,0,0,0,0,0,5,5,5,5,5,5,5,5,";
"    5,5,5,5,0,0,0,0,5,5,5,5,5,5,5,5,";
"    5,5,5,5,5,5,5,5,5,5,0,0,0,0,0,0,";
"    0x49,0x89,0xc9,0x109,0x149,0x189,0x1c9,0x209,0x249,0x289,0x30b,0,0,0,0x1b,0x1b,";
"    0x1b,0x1b,0x1b,0x1b,0x1b,0x1b,0x1b,0x1b,0x1b,0x1b,0x1b,0x1b,0x1b,0x1b,0x1b,0x1b,";
"    0x1b,0x1b,0x1b,0x1b,0x1b,0x1b,0x1b,0x1b,0x1b,0x1b,0x1b,0x1b,0x1b,0x1b,0x1b,0x1b,";
"    5,5,5,5,5,5,5,5,5,5,5,5,5,5,5,5,";
"    5,5,5,5,5,5,5,6,6,8,8,6,0,0,0x17,0x17,";
"    0x17,0x17,0x17,0x17,0x17,0x17,0x17,4,0x17,0x17,0x17,0x17,0x17,0x17,0,0,";
"    6,6,6,6,6,6,6,6,6,6,6,6,6,6,7,6,";
"    5,5,5,5,5,5,5,5,5,5,5,5,5,5,5,5,";
"    5,5,5,5,5,8,6,8,6,6,6,6,6,6,6,0,";
"    6,8,6,8,8,6,6,6,6,6,6,6,6,8,8,8,";
"    8,8,8,6,6,6,6,6,6,6,6,6,6,0,0,6,";
"    0x49,0x89,0xc9,0x109,0x149,0x189,0x1c9,0x209,0x249,0x289,0,0,0,0,0,0,";
"    0x49,0x89,0xc9,0x109,0x149,0x189,0x1c9,0x209,0x249,0x289,0,0,0,0,0,0,";
"    0x17,0x1b,0x1b,0x1b,0x1b,0x1b,0x1b,0x1b,0x1b,0x1b,0x1b,6,6,6,6,6,";
"    6,6,6,6,0x1b,0x1b,0x1b,0x1b,0x1b,0x1b,0x1b,0x1b,0x1b,0,0,0,";
"    6,0,0,0,0,0,0,0,0,0,0,0,0,0,0,0,";
"    0,0,0,0,0,0,0,0,0,0,0,0,0,0,0,0,";
"    6,6,6,6,8,5,5,5,5,5,5,5,5,5,5,5,";
"    5,5,5,5,5,5,5,5,5,5,5,5,5,5,5,5,";
"    6,8,6,6,6,6,6,8,6,8,8,8,8,8,6,8,";
"    8,5,5,5,5,5,5,5,0,0,0,0,0x49,0x89,0xc9,0x109,";
"    0x149,0x189,0x1c9,0x209,0x249,0x289,0x17,0x17,0x17,0x17,0x17,0x17,5,8,6,6,";
"    6,6,8,8,6,6,8,6,6,6,5,5,0x49,0x89,0xc9,0x109,";
"    0x149,0x189,0x1c9,0x209,0x249,0x289,5,5,5,5,5,5,6,6,8,5,";
"    5,5,5,5,5,5,5,5,5,5,5,5,5,5,5,5,";
"    5,5,5,5,5,5,5,5,5,5,5,5,5,5,6,8,";
"    6,6,8,8,8,6,8,6,6,6,8,8,0,0,0,0,";
"    0,0,0,0,0x17,0x17,0x17,0x17,0x49,0x89,0xc9,0x109,0x149,0x189,0x1c9,0x209,";
"    0x249,0x289,0,0,0,5,5,5,0x49,0x89,0xc9,0x109,0x149,0x189,0x1c9,0x209,";
"    0x249,0x289,5,5,5,5,5,5,8,8,8,8,8,8,8,8,";
"    6,6,6,6,6,6,6,6,8,8,6,6,0,0,0,0x17,";
"    0x17,0x17,0x17,0x17,5,5,5,5,5,5,5,5,5,5,5,5,";
"    5,5,5,5,5,5,5,5,5,5,5,5,4,4,4,4,";
"    4,4,0x17,0x17,2,2,2,2,2,2,2,2,2,0,0,0,";
"    0,0,0,0,1,1,1,1,1,1,1,1,1,1,1,1,";
"    1,1,1,1,1,1,1,1,1,1,1,1,1,1,1,0,";
"    0,1,1,1,0x17,0x17,0x17,0x17,0x17,0x17,0x17,0x17,0,0,0,0,";
"    0,0,0,0,6,6,6,0x17,6,6,6,6,6,6,6,6,";
"    6,6,6,6,6,8,6,6,6,6,6,6,6,5,5,5,";
"    5,6,5,5,5,5,5,5,6,5,5,8,6,6,5,0,";
"    0,0,0,0,2,2,2,2,2,2,2,2,2,2,2,2,";
"    4,4,4,4,4,4,4,4,4,4,4,4,4,4,4,4,";
"    4,4,4,4,4,4,4,4,4,4,4,4,4,4,4,4,";
"    4,4,4,2,2,2,2,2,2,2,2,2,2,2,2,2,";
"    4,2,2,2,2,2,2,2,2,2,2,2,2,2,2,2,";
"    2,2,2,2,2,2,2,2,2,2,2,2,2,2,2,4,";
"    4,4,4,4,6,6,6,6,6,6,6,6,6,6,6,6,";
"    6,6,6,6,6,6,6,6,6,6,6,6,6,6,0,6,";
"    6,6,6,6,1,2,1,2,1,2,1,2,1,2,1,2,";
"    1,2,1,2,1,2,1,2,1,2,2,2,2,2,2,2,";
"    2,2,1,2,2,2,2,2,2,2,2,2,1,1,1,1,";
"    1,0x1a,0x1a,0x1a,0,0,2,2,2,0,2,2,1,1,1,1,";
"    3,0x1a,0x1a,0,2,2,2,2,2,2,2,2,1,1,1,1,";
"    1,1,1,1,2,2,2,2,2,2,0,0,1,1,1,1,";
"    1,1,0,0,2,2,2,2,2,2,2,2,1,1,1,1,";
"    1,1,1,1,2,2,2,2,2,2,2,2,1,1,1,1,";
"    1,1,1,1,2,2,2,2,2,2,0,0,1,1,1,1,";
"    1,1,0,0,2,2,2,2,2,2,2,2,0,1,0,1,";
"    0,1,0,1,2,2,2,2,2,2,2,2,1,1,1,1,";
"    1,1,1,1,2,2,2,2,2,2,2,2,2,2,2,2,";
"    2,2,0,0,2,2,2,2,2,2,2,2,3,3,3,3,";
"    3,3,3,3,2,2,2,2,2,2,2,2,3,3,3,3,";
"    3,3,3,3,2,2,2,2,2,0,2,2,1,1,1,1,";
"    3,0x1a,2,0x1a,0x1a,0x1a,2,2,2,0,2,2,1,1,1,1,";
"    3,0x1a,0x1a,0x1a,2,2,2,2,0,0,2,2,1,1,1,1,";
"    0,0x1a,0x1a,0x1a,0x16,0x17,0x17,0x17,0x18,0x14,0x15,0x17,0x17,0x17,0x17,0x17,";
"    0x17,0x17,0x17,0x17,0x17,0x17,0x18,0x17,0x16,0x17,0x17,0x17,0x17,0x17,0x17,0x17,";
"    0x17,0x17,0x17,0xc,0x10,0x10,0x10,0x10,0x10,0,0x10,0x10,0x10,0x10,0x10,0x10,";
"    0x10,0x10,0x10,0x10,0x2cb,4,0,0,0x3cb,0x40b,0x44b,0x48b,0x4cb,0x50b,0x18,0x18,";
"    0x18,0x14,0x15,4,0xc,0xc,0xc,0xc,0xc,0xc,0xc,0xc,0xc,0xc,0xc,0x10,";
"    0x10,0x10,0x10,0x10,0x13,0x13,0x13,0x13,0x13,0x13,0x17,0x17,0x1c,0x1d,0x14,0x1c,";
"    0x1c,0x1d,0x14,0x1c,0x17,0x17,0x17,0x17,0x17,0x17,0x17,0x17,0xd,0xe,0x10,0x10,";
"    0x10,0x10,0x10,0xc,0x17,0x17,0x17,0x17,0x17,0x17,0x17,0x17,0x17,0x1c,0x1d,0x17,";
"    0x17,0x17,0x17,0x16,0x2cb,0x30b,0x34b,0x38b,0x3cb,0x40b,0x44b,0x48b,0x4cb,0x50b,0x18,0x18,";
"    0x18,0x14,0x15,0,4,4,4,4,4,4,4,4,4,4,4,4,";
"    4,0,0,0,0x19,0x19,0x19,0x19,0x19,0x19,0x19,0x19,0x19,0x19,0x19,0x19,";
"    0x19,0x19,0x19,0x19,0x19,0x19,0x19,0x19,0x19,0x19,0x19,0x19,0x19,0x19,0x19,0x19,";
"    0x19,0x19,0x19,0x19,0,0,0,0,0,0,0,0,0,0,0,0,";
"    0,0,0,0,6,6,6,6,6,6,6,6,6,6,6,6,";
"    6,7,7,7,7,6,7,7,7,6,6,6,6,6,6,6,";
"    6,6,6,6,6,0,0,0,0,0,0,0,0,0,0,0,";
"    0,0,0,0,0x1b,0x1b,0x1b,0x1b,1,0x1b,1,0x1b,1,0x1b,1,1,";
"    1,1,0x1b,2,1,1,1,1,2,5,5,5,5,2,0x1b,0x1b,";
"    2,2,1,1,0x18,0x18,0x18,0x18,0x18,1,2,2,2,2,0x1b,0x18,";
"    0x1b,0x1b,2,0x1b,0x358b,0x360b,0x364b,0x348b,0x388b,0x350b,0x390b,0x3d0b,0x410b,0x354b,0x454b,0x35cb,";
"    0x3dcb,0x45cb,0x4dcb,0x58b,0x1b,0x1b,1,0x1b,0x1b,0x1b,0x1b,1,0x1b,0x1b,2,1,";
"    1,1,2,2,1,1,1,2,0x1b,1,0x1b,0x1b,0x18,1,1,1,";
"    1,1,0x1b,0x1b,0x58a,0x5ca,0x60a,0x64a,0x68a,0x6ca,0x70a,0x74a,0x78a,0x7ca,0x80a,0x84a,";
"    0x11ca,0x1e4a,0x980a,0x784a,0x58a,0x5ca,0x60a,0x64a,0x68a,0x6ca,0x70a,0x74a,0x78a,0x7ca,0x80a,0x84a,";
"    0x11ca,0x1e4a,0x980a,0x784a,0x784a,0x984a,0x788a,1,2,0x6ca,0x11ca,0x988a,0x78ca,0x54b,0x1b,0x1b,";
"    0,0,0,0,0x18,0x18,0x18,0x18,0x18,0x1b,0x1b,0x1b,0x1b,0x1b,0x18,0x18,";
"    0x1b,0x1b,0x1b,0x1b,0x1b,0x1b,0x1b,0x1b,0x1b,0x1b,0x1b,0x1b,0x1b,0x1b,0x1b,0x1b,";
"    0x1b,0x1b,0x1b,0x1b,0x18,0x18,0x18,0x18,0x18,0x18,0x18,0x18,0x18,0x18,0x18,0x18,";
"    0x18,0x1b,0x1b,0x18,0x1b,0x1b,0x18,0x1b,0x1b,0x1b,0x1b,0x1b,0x1b,0x1b,0x18,0x1b,";
"    0x1b,0x1b,0x1b,0x1b,0x1b,0x1b,0x1b,0x1b,0x1b,0x1b,0x1b,0x1b,0x1b,0x1b,0x1b,0x1b,";
"    0x1b,0x1b,0x18,0x18,0x1b,0x1b,0x18,0x1b,0x18,0x1b,0x1b,0x1b,0x1b,0x1b,0x1b,0x1b,";
"    0x1b,0x1b,0x1b,0x1b,0x18,0x18,0x18,0x18,0x18,0x18,0x18,0x18,0x18,0x18,0x18,0x18,";
"    0x18,0x18,0x18,0x18,0x18,0x18,0x18,0x18,0x18,0x18,0x18,0x18,0x18,0x18,0x18,0x18,";
"    0x18,0x18,0x18,0x18,0x1b,0x1b,0x1b,0x1b,0x1b,0x1b,0x1b,0x1b,0x14,0x15,0x14,0x15,";
"    0x1b,0x1b,0x1b,0x1b,0x1b,0x1b,0x1b,0x1b,0x1b,0x1b,0x1b,0x1b,0x1b,0x1b,0x1b,0x1b,";
"    0x1b,0x1b,0x1b,0x1b,0x18,0x18,0x1b,0x1b,0x1b,0x1b,0x1b,0x1b,0x1b,0x14,0x15,0x1b,";
"    0x1b,0x1b,0x1b,0x1b,0x1b,0x1b,0x1b,0x1b,0x1b,0x1b,0x1b,0x1b,0x1b,0x1b,0x1b,0x1b,";
"    0x1b,0x1b,0x1b,0x1b,0x1b,0x1b,0x1b,0x1b,0x1b,0x1b,0x1b,0x1b,0x18,0x1b,0x1b,0x1b,";
"    0x1b,0x1b,0x1b,0x1b,0x1b,0x1b,0x1b,0x1b,0x1b,0x1b,0x1b,0x1b,0x1b,0x1b,0x1b,0x1b,";
"    0x1b,0x1b,0x1b,0x1b,0x1b,0x1b,0x1b,0x1b,0x1b,0x1b,0x1b,0x18,0x18,0x18,0x18,0x18,";
"    0x18,0x18,0x18,0x18,0x18,0x18,0x18,0x18,0x18,0x18,0x18,0x18,0x18,0x18,0x18,0x18,";
"    0x1b,0x1b,0x1b,0x1b,0x1b,0x1b,0x1b,0x1b,0x1b,0x1b,0x1b,0x1b,0x1b,0x1b,0x1b,0x1b,";
"    0x1b,0x1b,0x1b,0x1b,0x1b,0x1b,0x1b,0x1b,0x1b,0x1b,0x1b,0x1b,0x18,0x18,0x18,0x18,";
"    0x18,0x18,0x1b,0x1b,0x1b,0x1b,0x1b,0x1b,0x1b,0x1b,0x1b,0x1b,0x1b,0x1b,0x1b,0x1b,";
"    0x1b,0x1b,0x1b,0x1b,0x1b,0x1b,0x1b,0x1b,0x1b,0x1b,0x1b,0x1b,0x1b,0x1b,0x1b,0x1b,";
"    0x1b,0x1b,0x1b,0,0,0,0,0,0,0,0,0,0,0,0,0,";
"    0,0,0,0,0,0,0,0,0,0,0,0,0x1b,0x1b,0x1b,0x1b,";
"    0x1b,0x1b,0x1b,0x1b,0x1b,0x1b,0x2cb,0x80b,0x84b,0x88b,0x8cb,0x90b,0x94b,0x98b,0x9cb,0xa0b,";
"    0xa4b,0x30b,0x34b,0x38b,0x3cb,0x40b,0x44b,0x48b,0x4cb,0x50b,0x7cb,0x2cb,0x30b,0x34b,0x38b,0x3cb,";
"    0x40b,0x44b,0x48b,0x4cb,0x50b,0x7cb,0x80b,0x84b,0x88b,0x8cb,0x90b,0x94b,0x98b,0x9cb,0xa0b,0xa4b,";
"    0x30b,0x34b,0x38b,0x3cb,0x40b,0x44b,0x48b,0x4cb,0x50b,0x7cb,0x80b,0x84b,0x88b,0x8cb,0x90b,0x94b,";
"    0x98b,0x9cb,0xa0b,0xa4b,0x1b,0x1b,0x1b,0x1b,0x1b,0x1b,0x1b,0x1b,0x1b,0x1b,0x1b,0x1b,";
"    0x1b,0x1b,0x1b,0x1b,0x1b,0x1b,0x1b,0x1b,0x1b,0x1b,0x1b,0x1b,0x18,0x18,0x18,0x18,";
"    0x18,0x18,0x18,0x18,0x1b,0x1b,0x1b,0x1b,0x1b,0x1b,0x1b,0x1b,0x1b,0x1b,0x1b,0x1b,";
"    0x1b,0x1b,0x1b,0x1b,0x1b,0x1b,0x1b,0x1b,0x1b,0x1b,0x1b,0x18,0x1b,0x1b,0x1b,0x1b,";
"    0x1b,0x1b,0x1b,0x1b,0x1b,0x18,0x1b,0x1b,0x1b,0x1b,0x1b,0x1b,0x1b,0x1b,0x1b,0x1b,";
"    0x1b,0x1b,0x1b,0x1b,0x1b,0x1b,0x1b,0x1b,0x1b,0x1b,0x1b,0x1b,0x1b,0x1b,0x1b,0x1b,";
"    0x1b,0x1b,0x1b,0x1b,0x1b,0x1b,0x1b,0x18,0x1b,0x1b,0x1b,0x1b,0x1b,0x1b,0x1b,0x1b,";
"    0x1b,0x1b,0x1b,0x1b,0x1b,0x1b,0x1b,0x1b,0x14,0x15,0x14,0x15,0x14,0x15,0x14,0x15,";
"    0x14,0x15,0x14,0x15,0x14,0x15,0x30b,0x34b,0x38b,0x3cb,0x40b,0x44b,0x48b,0x4cb,0x50b,0x7cb,";
"    0x30b,0x34b,0x38b,0x3cb,0x40b,0x44b,0x48b,0x4cb,0x50b,0x7cb,0x30b,0x34b,0x38b,0x3cb,0x40b,0x44b,";
"    0x48b,0x4cb,0x50b,0x7cb,0x1b,0x1b,0x1b,0x1b,0x1b,0x1b,0x1b,0x1b,0x1b,0x1b,0x1b,0x1b,";
"    0x18,0x18,0x18,0x18,0x18,0x14,0x15,0x18,0x18,0x18,0x18,0x18,0x18,0x18,0x18,0x18,";
"    0x18,0x18,0x18,0x18,0x18,0x18,0x18,0x18,0x18,0x18,0x18,0x18,0x18,0x18,0x18,0x18,";
"    0x18,0x18,0x14,0x15,0x14,0x15,0x14,0x15,0x14,0x15,0x14,0x15,0x18,0x18,0x18,0x18,";
"    0x18,0x18,0x18,0x18,0x18,0x18,0x18,0x18,0x18,0x18,0x18,0x18,0x18,0x18,0x18,0x14,";
"    0x15,0x14,0x15,0x14,0x15,0x14,0x15,0x14,0x15,0x14,0x15,0x14,0x15,0x14,0x15,0x14,";
"    0x15,0x14,0x15,0x14,0x15,0x18,0x18,0x18,0x18,0x18,0x18,0x18,0x18,0x18,0x18,0x18,";
"    0x18,0x18,0x18,0x18,0x18,0x18,0x18,0x18,0x18,0x18,0x18,0x18,0x18,0x18,0x18,0x18,";
"    0x14,0x15,0x14,0x15,0x18,0x18,0x18,0x18,0x18,0x18,0x18,0x18,0x18,0x18,0x18,0x18,";
"    0x18,0x18,0x18,0x18,0x18,0x18,0x18,0x18,0x18,0x18,0x18,0x18,0x18,0x18,0x18,0x18,";
"    0x14,0x15,0x18,0x18,0x1b,0x1b,0x1b,0x1b,0x1b,0x1b,0x1b,0x1b,0x1b,0x1b,0x1b,0x1b,";
"    0x1b,0x1b,0x1b,0x1b,0x18,0x18,0x18,0x18,0x18,0x18,0x18,0x18,0x18,0x18,0x18,0x18,";
"    0x18,0x18,0x18,0x18,0x18,0x1b,0x1b,0x18,0x18,0x18,0x18,0x18,0x18,0x1b,0x1b,0x1b,";
"    0x1b,0x1b,0x1b,0x1b,0x1b,0x1b,0x1b,0x1b,0x1b,0x1b,0x1b,0x1b,0x1b,0x1b,0x1b,0x1b,";
"    0x1b,0x1b,0x1b,0x1b,0,0,0x1b,0x1b,0x1b,0x1b,0x1b,0x1b,0x1b,0x1b,0x1b,0x1b,";
"    0x1b,0x1b,0x1b,0x1b,0x1b,0x1b,0x1b,0x1b,0x1b,0x1b,0x1b,0x1b,0x1b,0x1b,0,0x1b,";
"    0x1b,0x1b,0x1b,0x1b,0x1b,0x1b,0x1b,0x1b,2,2,2,2,2,2,2,2,";
"    2,2,2,2,2,2,2,2,2,2,2,2,2,2,2,2,";
"    2,2,2,2,2,2,2,0,1,1,1,1,1,1,1,1,";
"    1,1,1,1,1,1,1,0,2,2,2,2,2,2,2,2,";
"    2,2,2,2,2,2,2,2,1,2,1,1,1,2,2,1,";
"    2,1,2,1,2,1,1,1,1,2,1,2,2,1,2,2,";
"    2,2,2,2,4,4,1,1,1,2,1,2,2,0x1b,0x1b,0x1b,";
"    0x1b,0x1b,0x1b,1,2,1,2,6,6,6,1,2,0,0,0,0,";
"    0,0x17,0x17,0x17,0x17,0x344b,0x17,0x17,2,2,2,2,2,2,0,2,";
"    0,0,0,0,0,2,0,0,5,5,5,5,5,5,5,5,";
"    5,5,5,5,5,5,5,5,0,0,0,0,0,0,0,4,";
"    0x17,0,0,0,0,0,0,0,0,0,0,0,0,0,0,6,";
"    5,5,5,5,5,5,5,0,5,5,5,5,5,5,5,0,";
"    5,5,5,5,5,5,5,0,5,5,5,5,5,5,5,0,";
"    5,5,5,5,5,5,5,5,5,5,5,5,5,5,5,5,";
"    5,5,5,5,5,5,5,0,0,0,0,0,0,0,0,0,";
"    0x17,0x17,0x1c,0x1d,0x1c,0x1d,0x17,0x17,0x17,0x1c,0x1d,0x17,0x1c,0x1d,0x17,0x17,";
"    0x17,0x17,0x17,0x17,0x17,0x17,0x17,0x13,0x17,0x17,0x13,0x17,0x1c,0x1d,0x17,0x17,";
"    0x1c,0x1d,0x14,0x15,0x14,0x15,0x14,0x15,0x14,0x15,0x17,0x17,0x17,0x17,0x17,4,";
"    0x17,0x17,0x17,0x17,0x17,0x17,0x17,0x17,0x17,0x17,0x13,0x13,0x17,0x17,0x17,0x17,";
"    0x13,0x17,0x14,0x17,0x17,0x17,0x17,0x17,0x17,0x17,0x17,0x17,0x17,0x17,0x17,0x17,";
"    0x1b,0x1b,0x17,0,0,0,0,0,0,0,0,0,0,0,0,0,";
"    0x1b,0x1b,0x1b,0x1b,0x1b,0x1b,0x1b,0x1b,0x1b,0x1b,0x1b,0x1b,0x1b,0x1b,0x1b,0x1b,";
"    0x1b,0x1b,0x1b,0x1b,0x1b,0x1b,0x1b,0x1b,0x1b,0x1b,0,0x1b,0x1b,0x1b,0x1b,0x1b,";
"    0x1b,0x1b,0x1b,0x1b,0x1b,0x1b,0x1b,0x1b,0x1b,0x1b,0x1b,0x1b,0x1b,0x1b,0x1b,0x1b,";
"    0,0,0,0,0,0,0,0,0,0,0,0,0x1b,0x1b,0x1b,0x1b,";
"    0x1b,0x1b,0x1b,0x1b,0x1b,0x1b,0x1b,0x1b,0x1b,0x1b,0x1b,0x1b,0x1b,0x1b,0x1b,0x1b,";
"    0x1b,0x1b,0,0,0,0,0,0,0,0,0,0,0,0,0,0,";
"    0,0,0,0,0x1b,0x1b,0x1b,0x1b,0x1b,0x1b,0x1b,0x1b,0x1b,0x1b,0x1b,0x1b,";
"    0,0,0,0,0x1b,0x58a,0x5ca,0x60a,0x64a,0x68a,0x6ca,0x70a,0x74a,0x78a,6,6,";
"    6,6,8,8,0x13,4,4,4,4,4,0x1b,0x1b,0x7ca,0xa4a,0xcca,4,";
"    5,0x17,0x1b,0x1b,0xc,0x17,0x17,0x17,0x1b,4,5,0x54a,0x14,0x15,0x14,0x15,";
"    0x14,0x15,0x14,0x15,0x14,0x15,0x1b,0x1b,0x14,0x15,0x14,0x15,0x14,0x15,0x14,0x15,";
"    0x13,0x14,0x15,0x15,5,5,5,5,5,5,5,5,5,5,5,5,";
"    5,5,5,5,5,5,5,5,5,5,5,0,0,6,6,0x1a,";
"    0x1a,4,4,5,5,5,5,5,5,5,5,5,5,5,5,5,";
"    5,5,5,5,5,5,5,5,5,5,5,5,5,5,5,0x17,";
"    4,4,4,5,0,0,0,0,0,5,5,5,5,5,5,5,";
"    5,5,5,5,5,5,5,5,5,5,5,5,5,5,5,5,";
"    5,5,5,5,0,5,5,5,5,5,5,5,5,5,5,5,";
"    5,5,5,5,5,5,5,0,0x1b,0x1b,0x58b,0x5cb,0x60b,0x64b,0x1b,0x1b,";
"    0x1b,0x1b,0x1b,0x1b,0x1b,0x1b,0x1b,0x1b,0,0,0,0,0,0,0,0,";
"    0,0,0,0,5,5,5,5,5,5,5,5,5,5,5,5,";
"    5,5,5,5,0x58b,0x5cb,0x60b,0x64b,0x68b,0x6cb,0x70b,0x74b,0x78b,0x7cb,0x1b,0x1b,";
"    0x1b,0x1b,0x1b,0x1b,0x1b,0x1b,0x1b,0x1b,0x1b,0x1b,0x1b,0x1b,0x1b,0x1b,0x1b,0x1b,";
"    0x1b,0x1b,0x1b,0x1b,0x7cb,0xa4b,0xccb,0xf4b,0x11cb,0x144b,0x16cb,0x194b,0x1b,0xa8b,0xacb,0xb0b,";
"    0xb4b,0xb8b,0xbcb,0xc0b,0xc4b,0xc8b,0xccb,0xd0b,0xd4b,0xd8b,0xdcb,0xe0b,0x1b,0x1b,0x1b,0x1b,";
"    0x1b,0x1b,0x1b,0x1b,0x1b,0x1b,0x1b,0x1b,0x1b,0x1b,0x1b,0x1b,0x1b,0xe4b,0xe8b,0xecb,";
"    0xf0b,0xf4b,0xf8b,0xfcb,0x100b,0x104b,0x108b,0x10cb,0x110b,0x114b,0x118b,0x11cb,5,5,5,5,";
"    5,0x685,5,5,5,5,5,5,5,5,5,5,5,5,5,5,";
"    5,5,5,5,5,5,5,5,5,5,5,5,5,5,5,0x5c5,";
"    5,5,5,5,5,5,5,5,5,5,5,5,5,5,5,5,";
"    5,5,5,5,5,5,5,5,5,5,5,5,5,5,0x685,5,";
"    5,5,5,5,5,5,5,5,5,5,5,5,5,5,5,5,";
"    5,5,5,5,5,0x705,5,5,5,5,5,5,5,5,5,5,";
"    5,5,5,5,5,5,5,5,0x585,5,5,0x705,5,5,5,0x7885,";
"    5,0x605,5,5,5,5,5,5,5,5,5,5,5,5,5,5,";
"    5,5,5,5,5,5,5,5,5,5,5,5,5,5,5,5,";
"    5,0x785,5,5,5,5,5,5,5,5,5,5,5,5,5,5,";
"    0x5c5,5,5,5,5,5,5,5,0x685,5,0x645,5,5,5,5,5,";
"    5,5,5,5,5,5,5,5,5,5,5,5,5,5,5,5,";
"    5,5,5,5,5,5,5,5,5,5,5,0x7985,0x7c5,5,5,5,";
"    5,5,5,5,5,5,5,5,5,5,5,5,5,5,5,5,";
"    5,5,5,5,5,5,5,5,5,5,5,0x7845,5,5,5,5,";
"    5,5,5,5,0x605,5,5,5,5,5,5,5,5,5,5,5,";
"    5,5,5,5,5,5,5,5,5,5,5,5,5,0x685,5,5,";
"    5,5,5,5,5,5,5,5,5,5,5,5,5,5,5,5,";
"    0x1e45,5,5,5,5,5,5,5,5,5,5,5,5,5,5,5,";
"    0x7985,5,5,5,5,5,5,5,5,5,5,5,5,5,5,5,";
"    5,5,5,5,5,5,5,5,5,5,5,5,5,5,0x7a85,5,";
"    5,5,5,5,5,5,5,5,5,5,5,5,5,5,5,5,";
"    5,5,5,5,5,5,5,5,5,0x5c5,5,0x745,5,0x6c5,5,5,";
"    5,5,5,5,5,5,5,5,5,5,5,5,5,5,5,5,";
"    5,0x7c5,5,0x7845,0xa45,0xcc5,5,5,5,5,5,5,0xf45,5,5,5,";
"    5,5,5,5,5,5,5,5,5,5,5,5,5,5,5,5,";
"    5,0x605,0x605,0x605,0x605,5,5,5,5,5,5,5,5,5,5,5,";
"    5,5,5,5,5,5,5,5,5,5,5,5,5,5,5,5,";
"    5,5,5,0x645,5,5,5,5,5,5,5,5,5,5,5,5,";
"    5,5,5,5,5,0x585,5,5,5,5,5,5,5,0x585,5,5,";
"    5,5,5,5,5,5,5,5,5,5,5,5,5,5,5,5,";
"    5,5,5,5,5,5,5,5,5,5,0x585,5,5,5,5,5,";
"    5,5,5,5,5,5,5,5,5,5,5,5,5,5,5,5,";
"    5,5,5,5,5,5,5,5,5,5,0x785,0xa45,5,5,5,5,";
"    5,5,5,5,5,5,5,5,0x585,0x5c5,0x605,5,0x5c5,5,5,5,";
"    5,5,5,5,5,5,5,5,5,5,5,5,5,5,5,5,";
"    5,5,5,5,5,5,5,5,5,5,5,5,5,5,0x7c5,5,";
"    5,5,5,5,5,5,5,5,5,5,5,5,0x745,5,5,5,";
"    5,5,5,5,5,5,5,5,5,5,5,5,5,5,5,5,";
"    5,5,0x705,5,5,5,5,5,5,5,5,5,5,5,5,5,";
"    5,5,5,5,5,5,5,5,5,5,5,5,5,5,0x785,5,";
"    5,5,5,5,5,5,5,5,5,5,5,5,5,5,5,5,";
"    5,5,5,5,5,5,5,5,5,5,5,5,5,5,0x1e45,5,";
"    5,5,5,5,5,5,0x645,5,5,5,5,5,5,5,5,5,";
"    5,5,5,5,5,5,5,5,5,5,5,5,5,5,5,5,";
"    0x7885,5,5,5,5,5,5,5,5,5,5,5,5,5,5,5,";
"    5,5,5,5,5,5,0x5c5,5,5,5,5,0x5c5,5,5,5,5,";
"    5,5,5,5,5,5,5,5,5,5,5,5,0x5c5,5,5,5,";
"    5,5,5,5,5,5,5,5,5,5,5,5,5,0x7845,5,5,";
"    5,5,5,5,5,5,5,5,5,5,5,5,5,5,5,5,";
"    5,5,5,5,5,5,5,5,5,5,5,5,5,5,0x6c5,5,";
"    5,5,5,5,0x1e45,5,5,5,5,5,5,5,5,5,5,5,";
"    5,5,5,5,5,5,5,5,5,5,5,5,5,5,5,5,";
"    0x6c5,5,5,5,5,5,5,5,5,5,5,5,5,5,5,5,";
"    5,5,5,5,5,5,5,5,5,5,0x545,5,5,5,5,5,";
"    5,5,5,5,5,5,5,5,5,0,0,0,0x1b,0x1b,0x1b,0x1b,";
"    0x1b,0x1b,0x1b,0x1b,0x1b,0x1b,0x1b,0x1b,0x1b,0x1b,0x1b,0x1b,5,5,5,5,";
"    5,5,5,5,5,5,5,5,5,5,5,5,5,5,5,5,";
"    5,4,5,5,5,5,5,5,5,5,5,5,0x1b,0x1b,0x1b,0x1b,";
"    0x1b,0x1b,0x1b,0,0,0,0,0,0,0,0,0,5,5,5,5,";
"    5,5,5,5,5,5,5,5,5,5,5,5,4,0x17,0x17,0x17,";
"    5,5,5,5,5,5,5,5,5,5,5,5,5,5,5,5,";
"    0x49,0x89,0xc9,0x109,0x149,0x189,0x1c9,0x209,0x249,0x289,5,5,0,0,0,0,";
"    0,0,0,0,0,0,0,0,0,0,0,0,0,0,0,0,";
"    1,2,1,2,1,2,1,2,1,2,1,2,1,2,1,2,";
"    1,2,1,2,1,2,1,2,1,2,1,2,4,4,6,6,";
"    1,2,1,2,1,2,1,2,1,2,1,2,1,2,5,6,";
"    7,7,7,0x17,6,6,6,6,6,6,6,6,6,6,0x17,4,";
"    5,5,5,5,5,5,0x58a,0x5ca,0x60a,0x64a,0x68a,0x6ca,0x70a,0x74a,0x78a,0x54a,";
"    6,6,0x17,0x17,0x17,0x17,0x17,0x17,0,0,0,0,0,0,0,0,";
"    0x1a,0x1a,0x1a,0x1a,0x1a,0x1a,0x1a,0x1a,0x1a,0x1a,0x1a,0x1a,0x1a,0x1a,0x1a,0x1a,";
"    0x1a,0x1a,0x1a,0x1a,0x1a,0x1a,0x1a,4,4,4,4,4,4,4,4,4,";
"    0,0,0,0,0,0,0,0,0,0,0,0,0,0,0,0,";
"    0,0,0,0,0,1,2,5,4,4,2,5,5,5,5,5,";
"    0x1a,0x1a,1,2,1,2,1,2,1,2,1,2,1,2,1,2,";
"    2,2,1,2,1,2,1,2,1,2,1,2,1,2,1,2,";
"    1,2,1,2,4,2,2,2,2,2,2,2,2,1,2,1,";
"    2,1,1,2,1,2,1,2,1,2,1,2,4,0x1a,0x1a,1,";
"    2,1,2,5,1,2,1,2,2,2,1,2,1,2,1,2,";
"    1,2,1,2,1,2,1,1,1,1,1,2,1,1,1,1,";
"    1,2,1,2,1,2,1,2,1,2,1,2,0,0,1,2,";
"    1,1,1,1,2,1,2,0,0,0,0,0,0,0,0,0,";
"    0,0,0,0,0,0,0,0,0,0,0,0,5,5,6,5,";
"    5,5,6,5,5,5,5,6,5,5,5,5,5,5,5,5,";
"    5,5,5,5,5,5,5,5,5,5,5,5,5,5,5,8,";
"    8,6,6,8,0x1b,0x1b,0x1b,0x1b,6,0,0,0,0x34cb,0x344b,0x3ccb,0x37cb,";
"    0x35cb,0x3fcb,0x1b,0x1b,0x19,0x1b,0,0,0,0,0,0,5,5,5,5,";
"    5,5,5,5,5,5,5,5,5,5,5,5,5,5,5,5,";
"    0x17,0x17,0x17,0x17,0,0,0,0,0,0,0,0,8,8,8,8,";
"    6,6,0,0,0,0,0,0,0,0,0x17,0x17,0x49,0x89,0xc9,0x109,";
"    0x149,0x189,0x1c9,0x209,0x249,0x289,0,0,0,0,0,0,8,8,5,5,";
"    5,5,5,5,5,5,5,5,5,5,5,5,5,5,5,5,";
"    5,5,5,5,5,5,5,5,5,5,5,5,8,8,8,8,";
"    8,8,8,8,8,8,8,8,6,6,6,6,6,6,6,6,";
"    6,6,6,6,6,6,6,6,6,6,5,5,5,5,5,5,";
"    0x17,0x17,0x17,5,0x17,5,5,6,5,5,5,5,5,5,6,6,";
"    6,6,6,6,6,6,0x17,0x17,5,5,5,5,5,5,5,5,";
"    5,5,5,5,5,5,5,5,5,5,5,6,6,6,6,6,";
"    6,6,6,6,6,6,8,8,0,0,0,0,0,0,0,0,";
"    0,0,0,0x17,8,0x17,0x17,0x17,0x17,0x17,0x17,0x17,0x17,0x17,0x17,0x17,";
"    0x17,0x17,0,4,0x49,0x89,0xc9,0x109,0x149,0x189,0x1c9,0x209,0x249,0x289,0,0,";
"    0,0,0x17,0x17,5,5,5,5,5,5,5,5,5,5,5,5,";
"    5,5,5,5,5,5,5,6,8,8,6,6,6,6,8,8,";
"    6,6,8,8,5,5,5,5,5,6,4,5,5,5,5,5,";
"    5,5,5,5,0x49,0x89,0xc9,0x109,0x149,0x189,0x1c9,0x209,0x249,0x289,5,5,";
"    5,5,5,0,5,5,5,5,5,5,5,5,5,6,6,6,";
"    6,6,6,8,8,6,6,8,8,6,6,0,0,0,0,0,";
"    0,0,0,0,5,5,5,6,5,5,5,5,5,5,5,5,";
"    6,8,0,0,0x49,0x89,0xc9,0x109,0x149,0x189,0x1c9,0x209,0x249,0x289,0,0,";
"    0x17,0x17,0x17,0x17,5,5,5,5,5,5,5,5,5,5,5,5,";
"    5,5,5,5,4,5,5,5,5,5,5,0x1b,0x1b,0x1b,5,8,";
"    6,8,5,5,5,5,5,5,5,5,5,5,5,5,5,5,";
"    5,5,5,5,6,5,6,6,6,5,5,6,6,5,5,5,";
"    5,5,6,6,5,6,5,0,0,0,0,0,0,0,0,0,";
"    0,0,0,0,0,0,0,0,0,0,0,0,0,0,0,5,";
"    5,4,0x17,0x17,5,5,5,5,5,5,5,5,5,5,5,8,";
"    6,6,8,8,0x17,0x17,5,4,4,8,6,0,0,0,0,0,";
"    0,0,0,0,0,5,5,5,5,5,5,0,0,5,5,5,";
"    5,5,5,0,0,5,5,5,5,5,5,0,0,0,0,0,";
"    0,0,0,0,5,5,5,5,5,5,5,0,5,5,5,5,";
"    5,5,5,0,2,2,2,2,2,2,2,2,2,2,2,2,";
"    2,2,2,2,2,2,2,2,2,2,2,2,2,2,2,0x1a,";
"    4,4,4,4,2,2,2,2,2,2,2,2,2,4,0x1a,0x1a,";
"    0,0,0,0,2,2,2,2,2,2,2,2,2,2,2,2,";
"    2,2,2,2,5,5,5,8,8,6,8,8,6,8,8,0x17,";
"    8,6,0,0,0x49,0x89,0xc9,0x109,0x149,0x189,0x1c9,0x209,0x249,0x289,0,0,";
"    0,0,0,0,5,5,5,5,0,0,0,0,0,0,0,0,";
"    0,0,0,0,5,5,5,5,5,5,5,5,5,5,5,5,";
"    5,5,5,5,5,5,5,5,5,5,5,5,5,5,5,5,";
"    0,0,0,0,5,5,5,5,5,5,5,0,0,0,0,5,";
"    5,5,5,5,5,5,5,5,5,5,5,5,5,5,5,5,";
"    5,5,5,5,0x12,0x12,0x12,0x12,0x12,0x12,0x12,0x12,0x12,0x12,0x12,0x12,";
"    0x12,0x12,0x12,0x12,0x12,0x12,0x12,0x12,0x12,0x12,0x12,0x12,0x12,0x12,0x12,0x12,";
"    0x12,0x12,0x12,0x12,0x11,0x11,0x11,0x11,0x11,0x11,0x11,0x11,0x11,0x11,0x11,0x11,";
"    0x11,0x11,0x11,0x11,0x11,0x11,0x11,0x11,0x11,0x11,0x11,0x11,0x11,0x11,0x11,0x11,";
"    0x11,0x11,0x11,0x11,5,5,5,5,5,5,5,5,5,5,5,0x605,";
"    5,5,5,5,5,5,5,0x7c5,5,5,5,5,0x5c5,5,5,5,";
"    5,5,5,5,5,5,5,5,5,5,5,5,5,5,5,5,";
"    5,0x6c5,5,0x6c5,5,5,5,5,5,5,5,5,5,5,5,5,";
"    5,5,5,5,5,5,5,5,5,5,5,5,5,5,5,5,";
"    5,0x7c5,5,5,5,5,5,5,5,5,5,5,5,5,5,5,";
"    5,5,0,0,5,5,5,5,5,5,5,5,5,5,5,5,";
"    5,5,5,5,5,0x18,5,5,5,5,5,5,5,5,5,5,";
"    5,5,5,0,5,5,5,5,5,0,5,0,5,5,0,5,";
"    5,0,5,5,5,5,5,5,5,5,5,5,5,5,5,5,";
"    5,5,5,5,5,5,5,5,5,5,5,5,2,2,2,2,";
"    2,2,2,0,0,0,0,0,0,0,0,0,0,0,0,2,";
"    2,2,2,2,0,0,0,0,0,5,6,5,5,5,5,5,";
"    5,5,5,5,5,5,5,5,5,5,5,5,5,5,0x1a,0x1a,";
"    0x1a,0x1a,0x1a,0x1a,0x1a,0x1a,0x1a,0x1a,0x1a,0x1a,0x1a,0x1a,0x1a,0x1a,0,0,";
"    0,0,0,0,0,0,0,0,0,0,0,0,0,0,0,5,";
"    5,5,5,5,5,5,5,5,5,5,5,5,5,5,5,5,";
"    5,5,5,5,5,5,5,5,5,5,5,5,5,5,0x15,0x14,";
"    0,0,0,0,0,0,0,0,0,0,0,0,0,0,0,0,";
"    5,5,5,5,5,5,5,5,5,5,5,5,5,5,5,5,";
"    0,0,5,5,5,5,5,5,5,5,5,5,5,5,5,5,";
"    0,0,0,0,0,0,0,0,0,0,0,0,0,0,0,0,";
"    0,0,0,0,0,0,0,0,5,5,5,5,5,5,5,5,";
"    5,5,5,5,0x19,0x1b,0,0,6,6,6,6,6,6,6,6,";
"    6,6,6,6,6,6,6,6,0x17,0x17,0x17,0x17,0x17,0x17,0x17,0x14,";
"    0x15,0x17,0,0,0,0,0,0,6,6,6,6,6,6,6,6,";
"    6,6,6,6,6,6,6,6,0x17,0x13,0x13,0x16,0x16,0x14,0x15,0x14,";
"    0x15,0x14,0x15,0x14,0x15,0x14,0x15,0x14,0x15,0x17,0x17,0x14,0x15,0x17,0x17,0x17,";
"    0x17,0x16,0x16,0x16,0x17,0x17,0x17,0,0x17,0x17,0x17,0x17,0x13,0x14,0x15,0x14,";
"    0x15,0x14,0x15,0x17,0x17,0x17,0x18,0x13,0x18,0x18,0x18,0,0x17,0x19,0x17,0x17,";
"    0,0,0,0,5,5,5,5,5,0,5,5,5,5,5,5,";
"    5,5,5,5,5,5,5,5,5,5,5,5,5,5,5,5,";
"    5,5,5,5,5,5,5,5,5,0,0,0x10,0,0,5,5,";
"    5,5,5,5,0,0,5,5,5,5,5,5,0,0,5,5,";
"    5,5,5,5,0,0,5,5,5,0,0,0,0x19,0x19,0x18,0x1a,";
"    0x1b,0x19,0x19,0,0x1b,0x18,0x18,0x18,0x18,0x1b,0x1b,0,0,0,0,0,";
"    0,0,0,0,0,0x10,0x10,0x10,0x1b,0x1b,0,0,0,0x17,0x17,0x17,";
"    0x19,0x17,0x17,0x17,0x14,0x15,0x17,0x18,0x17,0x13,0x17,0x17,0x49,0x89,0xc9,0x109,";
"    0x149,0x189,0x1c9,0x209,0x249,0x289,0x17,0x17,0x18,0x18,0x18,0x17,0x1a,2,2,2,";
"    2,2,2,2,2,2,2,2,2,2,2,2,2,2,2,2,";
"    2,2,2,2,2,2,2,0x14,0x18,0x15,0x18,0x14,0x15,0x17,0x14,0x15,";
"    0x17,0x17,5,5,5,5,5,5,5,5,5,5,4,5,5,5,";
"    5,5,5,5,5,5,5,5,5,5,5,5,5,5,5,5,";
"    5,5,5,5,5,5,5,5,5,5,5,5,5,5,4,4,";
"    5,5,5,5,5,5,5,5,5,5,5,5,0,5,5,5,";
"    5,5,5,5,5,5,5,5,5,5,5,5,5,5,5,5,";
"    5,5,5,0,5,5,5,5,5,5,5,5,5,5,5,5,";
"    5,5,5,5,5,5,5,0,5,5,0,5,5,5,5,5,";
"    5,5,5,5,5,5,5,5,5,5,0,0,5,5,5,5,";
"    5,5,5,5,5,5,5,5,5,5,0,0,5,5,5,5,";
"    5,5,5,5,5,5,5,5,5,5,5,5,5,5,5,5,";
"    5,5,5,5,5,5,5,0,0,0,0,0,0xb00b,0xb80b,0x784b,0x804b,";
"    0x884b,0x904b,0x984b,0xa04b,0xa84b,0xb04b,0xb84b,0x788b,0x808b,0x888b,0x908b,0x988b,0xa08b,0xa88b,0xb08b,0xb88b,";
"    0,0,0,0x1b,0x1b,0x1b,0x1b,0x1b,0x1b,0x1b,0x1b,0x1b,0x17,0x17,0x17,0,";
"    0,0,0,0x58b,0x5cb,0x60b,0x64b,0x68b,0x6cb,0x70b,0x74b,0x78b,0x7cb,0xa4b,0xccb,0xf4b,";
"    0x11cb,0x144b,0x16cb,0x194b,0x1bcb,0x1e4b,0x800b,0x880b,0x900b,0x980b,0xa00b,0xa80b,0x7ca,0x7ca,0x7ca,0x7ca,";
"    0x7ca,0xcca,0x11ca,0x11ca,0x11ca,0x11ca,0x1e4a,0x880a,0x980a,0x980a,0x980a,0x980a,0x980a,0x784a,0x984a,0x68a,";
"    0x11ca,0x344b,0x344b,0x388b,0x3ccb,0x1b,0x1b,0x1b,0x1b,0x1b,0x1b,0x1b,0x1b,0x1b,0x1b,0x1b,";
"    0x1b,0x1b,0x54b,0x34cb,0x1b,0x1b,0x1b,0,0x1b,0x1b,0x1b,0x1b,0x1b,0x1b,0x1b,0x1b,";
"    0x1b,0x1b,0x1b,0x1b,0x1b,0,0,0,0x34ca,0x344a,0x58a,0x68a,0x11ca,0x980a,0x984a,0x988a,";
"    0x68a,0x7ca,0x11ca,0x1e4a,0x980a,0x784a,0x984a,0x68a,0x7ca,0x11ca,0x1e4a,0x980a,0x784a,0x788a,0x988a,0x7ca,";
"    0x58a,0x58a,0x58a,0x5ca,0x5ca,0x5ca,0x5ca,0x68a,0x1b,0,0,0,0,0,0,0,";
"    0,0,0,0,0,0,0,0,0,0,0,0,0,0,0,0,";
"    0,0,0,0,0,0,0,0,0x1b,0x1b,0x1b,0x1b,0x1b,0x1b,0x1b,0x1b,";
"    0x1b,0x1b,0x1b,0x1b,0x1b,0x1b,0x1b,0x1b,0x1b,0x1b,0x1b,0x1b,0x1b,0x1b,0x1b,0x1b,";
"    0x1b,0x1b,0x1b,0x1b,0x1b,6,0,0,5,5,5,5,5,5,5,5,";
"    5,5,5,5,5,5,5,5,5,0,0,0,0,0,0,0,";
"    0,0,0,0,0,0,0,0,6,0x58b,0x5cb,0x60b,0x64b,0x68b,0x6cb,0x70b,";
"    0x74b,0x78b,0x7cb,0xa4b,0xccb,0xf4b,0x11cb,0x144b,0x16cb,0x194b,0x1bcb,0x1e4b,0x800b,0x880b,0x900b,0x980b,";
"    0xa00b,0xa80b,0xb00b,0xb80b,0,0,0,0,0x58b,0x68b,0x7cb,0x11cb,0,0,0,0,";
"    0,0,0,0,0,5,5,5,5,5,5,5,5,5,5,5,";
"    5,5,5,5,5,5,5,5,5,0x1bca,5,5,5,5,5,5,";
"    5,5,0xb80a,0,0,0,0,0,5,5,5,5,5,5,5,5,";
"    5,5,5,5,5,5,5,5,5,5,5,5,5,5,6,6,";
"    6,6,6,0,0,0,0,0,5,5,5,5,5,5,5,5,";
"    5,5,5,5,5,5,5,5,5,5,5,5,5,5,5,5,";
"    5,5,5,5,5,5,0,0x17,5,5,5,5,0,0,0,0,";
"    5,5,5,5,5,5,5,5,0x17,0x58a,0x5ca,0x7ca,0xa4a,0x1e4a,0,0,";
"    0,0,0,0,0,0,0,0,2,2,2,2,2,2,2,2,";
"    2,2,2,2,2,2,2,2,5,5,5,5,5,5,5,5,";
"    5,5,5,5,5,5,5,5,5,5,5,5,5,5,5,5,";
"    5,5,5,5,5,5,0,0,0x49,0x89,0xc9,0x109,0x149,0x189,0x1c9,0x209,";
"    0x249,0x289,0,0,0,0,0,0,1,1,1,1,1,1,1,1,";
"    1,1,1,1,1,1,1,1,2,2,2,2,2,2,2,2,";
"    2,2,2,2,2,2,2,2,2,2,2,2,2,2,2,2,";
"    2,2,2,2,0,0,0,0,1,1,1,1,1,1,1,1,";
"    1,1,1,1,1,1,1,1,1,1,1,1,0,0,0,0,";
"    2,2,2,2,2,2,2,2,5,5,5,5,5,5,5,5,";
"    0,0,0,0,0,0,0,0,5,5,5,5,5,5,5,5,";
"    5,5,5,5,5,5,5,5,0,0,0,0,0,0,0,0,";
"    0,0,0,0x17,0,0,0,0,0,0,0,0,0,0,0,0,";
"    0,0,0,0,5,5,5,5,5,5,5,5,5,5,5,5,";
"    5,5,5,5,5,5,5,5,5,5,0,5,5,0,0,0,";
"    5,0,0,5,5,5,5,5,5,5,0,0,5,0,5,5,";
"    5,5,5,5,5,5,5,5,5,5,5,5,5,5,5,5,";
"    5,5,5,5,5,5,0,0x17,0x58b,0x5cb,0x60b,0x7cb,0xa4b,0x1e4b,0x784b,0x788b,";
"    5,5,5,5,5,5,5,5,5,5,5,5,5,5,5,5,";
"    5,5,5,5,5,5,5,0x1b,0x1b,0x58b,0x5cb,0x60b,0x64b,0x68b,0x7cb,0xa4b,";
"    0,0,0,0,0,0,0,0x58b,0x5cb,0x60b,0x64b,0x64b,0x68b,0x7cb,0xa4b,0x1e4b,";
"    0,0,0,0,0,0,0,0,0,0,0,0,0,0,0,0,";
"    5,5,5,5,5,5,5,5,5,5,5,5,5,5,5,5,";
"    5,5,5,0,5,5,0,0,0,0,0,0x58b,0x68b,0x7cb,0xa4b,0x1e4b,";
"    5,5,5,5,5,5,5,5,5,5,5,5,5,5,5,5,";
"    5,5,5,5,5,5,0x58b,0x7cb,0xa4b,0x1e4b,0x5cb,0x60b,0,0,0,0x17,";
"    5,5,5,5,5,5,5,5,5,5,5,5,5,5,5,5,";
"    5,5,5,5,5,5,5,5,5,5,0,0,0,0,0,0x17,";
"    0xa04b,0xa84b,0xb04b,0xb84b,0x788b,0x808b,0x888b,0x908b,0x988b,0xa08b,0xa88b,0xb08b,0xb88b,0x78cb,0x80cb,0x88cb,";
"    0x90cb,0x98cb,0xa0cb,0xa8cb,0xb0cb,0xb8cb,0x36cb,0x354b,0x34cb,0x348b,0x46cb,0x344b,0x4ecb,0x388b,0x3ccb,0x454b,";
"    5,5,5,5,5,5,5,5,5,5,5,5,5,5,5,5,";
"    5,5,5,5,5,5,5,5,0,0,0,0,0x5ecb,0x344b,5,5,";
"    0x58b,0x5cb,0x60b,0x64b,0x68b,0x6cb,0x70b,0x74b,0x78b,0x7cb,0xa4b,0xccb,0xf4b,0x11cb,0x144b,0x16cb,";
"    0,0,0x1e4b,0x800b,0x880b,0x900b,0x980b,0xa00b,0xa80b,0xb00b,0xb80b,0x784b,0x804b,0x884b,0x904b,0x984b,";
"    0x30b,0x34b,0x38b,0x3cb,0x7cb,0xa4b,0x1e4b,0x784b,0x344b,0,0,0,0,0,0,0,";
"    0x17,0x17,0x17,0x17,0x17,0x17,0x17,0x17,0x17,0,0,0,0,0,0,0,";
"    5,6,6,6,0,6,6,0,0,0,0,0,6,6,6,6,";
"    5,5,5,5,0,5,5,5,0,5,5,5,5,5,5,5,";
"    5,5,5,5,5,5,5,5,5,5,5,5,5,5,5,5,";
"    5,5,0,0,6,6,6,0,0,0,0,6,5,5,5,5,";
"    5,5,5,5,5,5,5,5,5,5,5,5,5,5,5,5,";
"    5,5,5,5,5,5,5,5,5,0x58b,0x11cb,0x17,5,5,5,5,";
"    5,5,5,5,5,5,5,5,5,5,5,5,5,5,5,5,";
"    5,5,5,5,5,5,5,5,5,0x58b,0x7cb,0xa4b,5,5,5,5,";
"    5,6,6,0,0,0,0,0x58b,0x68b,0x7cb,0xa4b,0x1e4b,0x17,0x17,0x17,0x17,";
"    0x17,0x17,0x17,0,0,0,0,0,0,0,0,0,5,5,5,5,";
"    5,5,5,5,0x1b,5,5,5,5,5,5,5,5,5,5,5,";
"    5,5,5,5,5,5,5,5,5,5,5,5,5,5,0,0,";
"    0,0x17,0x17,0x17,0x17,0x17,0x17,0x17,5,5,5,5,5,5,5,5,";
"    5,5,5,5,5,5,5,5,5,5,5,5,5,5,0,0,";
"    0x58b,0x5cb,0x60b,0x64b,0x7cb,0xa4b,0x1e4b,0x784b,5,5,5,5,5,5,5,5,";
"    5,5,5,5,5,5,5,5,5,5,5,0,0,0,0,0,";
"    0x58b,0x5cb,0x60b,0x64b,0x7cb,0xa4b,0x1e4b,0x784b,5,5,5,5,5,5,5,5,";
"    5,5,5,5,5,5,5,5,5,5,0,0,0,0,0,0,";
"    0,0x17,0x17,0x17,0x17,0,0,0,0,0,0,0,0,0,0,0,";
"    0,0x58b,0x5cb,0x60b,0x64b,0x7cb,0xa4b,0x1e4b,0,0,0,0,0,0,0,0,";
"    0,0,0,0,0,0,0,0,5,5,5,5,5,5,5,5,";
"    5,0,0,0,0,0,0,0,0,0,0,0,0,0,0,0,";
"    0,0,0,0,0,0,0,0,1,1,1,1,1,1,1,1,";
"    1,1,1,1,1,1,1,1,1,1,1,0,0,0,0,0,";
"    0,0,0,0,0,0,0,0,2,2,2,2,2,2,2,2,";
"    2,2,2,2,2,2,2,2,2,2,2,0,0,0,0,0,";
"    0,0,0x58b,0x68b,0x7cb,0x11cb,0x1e4b,0x784b,5,5,5,5,6,6,6,6,";
"    0,0,0,0,0,0,0,0,0x49,0x89,0xc9,0x109,0x149,0x189,0x1c9,0x209,";
"    0x249,0x289,0,0,0,0,0,0,0x30b,0x34b,0x38b,0x3cb,0x40b,0x44b,0x48b,0x4cb,";
"    0x50b,0x7cb,0xa4b,0xccb,0xf4b,0x11cb,0x144b,0x16cb,0x194b,0x1bcb,0x1e4b,0x800b,0x880b,0x900b,0x980b,0xa00b,";
"    0xa80b,0xb00b,0xb80b,0x344b,0x34cb,0x348b,0x388b,0,5,5,5,5,5,5,5,5,";
"    5,5,0,6,6,0x13,0,0,5,5,0,0,0,0,0,0,";
"    0,0,0,0,0,0,0,0,5,5,5,5,5,5,5,5,";
"    5,5,5,5,5,5,5,5,5,5,5,5,5,5,5,5,";
"    5,5,5,5,5,0x58b,0x5cb,0x60b,0x64b,0x68b,0x7cb,0xa4b,0xccb,0x1e4b,0x344b,5,";
"    0,0,0,0,0,0,0,0,5,5,5,5,5,5,5,5,";
"    5,5,5,5,5,5,5,5,5,5,6,6,6,6,6,6,";
"    6,6,6,6,6,0x58b,0x7cb,0xa4b,0x1e4b,0x17,0x17,0x17,0x17,0x17,0,0,";
"    0,0,0,0,5,5,5,5,5,0x58b,0x5cb,0x60b,0x64b,0x7cb,0xa4b,0x1e4b,";
"    0,0,0,0,0,0,0,0,0,0,0,0,0,0,0,0,";
"    0,0,0,0,0x144b,0x16cb,0x194b,0x1bcb,0x1e4b,0x784b,0x49,0x89,0xc9,0x109,0x149,0x189,";
"    0x1c9,0x209,0x249,0x289,0,0,0,0,0,0,0,0,0,0,0,0,";
"    0,0,0,6,8,6,8,5,5,5,5,5,5,5,5,5,";
"    5,5,5,5,5,5,5,5,5,5,5,5,5,5,5,5,";
"    5,5,5,5,6,6,6,6,6,6,6,0x17,0x17,0x17,0x17,0x17,";
"    0x17,0x17,0,0,0,0,0x30b,0x34b,0x38b,0x3cb,0x40b,0x44b,0x48b,0x4cb,0x50b,0x7cb,";
"    0xa4b,0xccb,0xf4b,0x11cb,5,5,5,5,5,5,5,5,5,5,5,5,";
"    5,5,5,5,8,8,8,6,6,6,6,8,8,6,6,0x17,";
"    0x17,0x10,0x17,0x17,0x17,0x17,0,0,0,0,0,0,0,0,0,0,";
"    0,0x10,0,0,5,5,5,5,5,5,5,5,5,5,5,5,";
"    5,5,5,5,5,0,0,0,0,0,0,0,0x49,0x89,0xc9,0x109,";
"    0x149,0x189,0x1c9,0x209,0x249,0x289,0,0,0,0,0,0,5,5,5,5,";
"    5,5,5,6,6,6,6,6,8,6,6,6,6,6,6,6,";
"    6,0,0x49,0x89,0xc9,0x109,0x149,0x189,0x1c9,0x209,0x249,0x289,0x17,0x17,0x17,0x17,";
"    5,8,8,5,0,0,0,0,0,0,0,0,5,5,5,5,";
"    5,5,5,5,5,5,5,5,5,5,5,5,6,6,6,5,";
"    5,5,5,5,5,5,5,5,5,5,5,5,5,5,5,5,";
"    5,5,5,5,5,5,5,5,5,5,5,5,5,5,5,6,";
"    0x17,0x17,5,0,0,0,0,0,0,0,0,0,8,5,5,5,";
"    5,0x17,0x17,0x17,0x17,6,6,6,6,0x17,8,6,0x49,0x89,0xc9,0x109,";
"    0x149,0x189,0x1c9,0x209,0x249,0x289,5,0x17,5,0x17,0x17,0x17,5,5,5,5,";
"    5,5,5,5,5,5,5,5,5,5,5,5,5,5,5,8,";
"    8,8,6,6,6,6,6,6,6,6,6,8,0,0x58b,0x5cb,0x60b,";
"    0x64b,0x68b,0x6cb,0x70b,0x74b,0x78b,0x7cb,0xa4b,0xccb,0xf4b,0x11cb,0x144b,0x16cb,0x194b,0x1bcb,0x1e4b,";
"    0x784b,0,0,0,0,0,0,0,0,0,0,0,5,5,5,5,";
"    5,5,5,5,5,5,5,5,8,8,8,6,6,6,8,8,";
"    6,8,6,6,0x17,0x17,0x17,0x17,0x17,0x17,6,0,5,5,5,5,";
"    5,5,5,5,5,5,5,5,5,5,5,5,5,5,0,5,";
"    5,5,5,5,5,5,5,5,5,5,5,5,5,5,5,0,";
"    5,0,5,5,5,5,0,5,5,5,5,5,5,5,5,5,";
"    5,5,5,5,5,5,0,5,5,5,5,5,5,5,5,5,";
"    5,0x17,0,0,0,0,0,0,5,5,5,5,5,5,5,5,";
"    5,5,5,5,5,5,5,5,8,8,8,6,6,6,6,6,";
"    6,6,6,0,0,0,0,0,0x49,0x89,0xc9,0x109,0x149,0x189,0x1c9,0x209,";
"    0x249,0x289,0,0,0,0,0,0,5,5,8,8,0,0,6,6,";
"    6,6,6,6,6,0,0,0,6,6,6,6,6,0,0,0,";
"    0,0,0,0,0,0,0,0,6,6,8,8,0,5,5,5,";
"    5,5,5,5,5,0,0,5,5,0,0,5,5,5,5,5,";
"    5,5,5,5,5,5,5,5,5,0,5,5,5,5,5,5,";
"    5,0,5,5,0,5,5,5,5,5,0,6,6,5,8,8,";
"    6,8,8,8,8,0,0,8,8,0,0,8,8,8,0,0,";
"    5,0,0,0,0,0,0,8,0,0,0,0,0,5,5,5,";
"    5,5,5,5,5,5,5,5,5,5,5,5,5,5,5,5,";
"    5,5,5,5,5,8,8,8,6,6,6,6,6,6,6,6,";
"    8,8,6,6,6,8,6,5,5,5,5,0x17,0x17,0x17,0x17,0x17,";
"    0x49,0x89,0xc9,0x109,0x149,0x189,0x1c9,0x209,0x249,0x289,0x17,0x17,0,0x17,6,5,";
"    5,5,0,0,0,0,0,0,0,0,0,0,0,0,0,0,";
"    0,0,0,0,0,0,0,0,0,0,0,0,0,0,0,0,";
"    5,5,5,5,5,5,5,5,5,5,5,5,5,5,5,5,";
"    8,8,8,6,6,6,6,6,6,8,6,8,8,8,8,6,";
"    6,8,6,6,5,5,0x17,5,0,0,0,0,0,0,0,0,";
"    0x49,0x89,0xc9,0x109,0x149,0x189,0x1c9,0x209,0x249,0x289,0,0,0,0,0,0,";
"    5,5,5,5,5,5,5,5,5,5,5,5,5,5,5,8,";
"    8,8,6,6,6,6,0,0,8,8,8,8,6,6,8,6,";
"    6,0x17,0x17,0x17,0x17,0x17,0x17,0x17,0x17,0x17,0x17,0x17,0x17,0x17,0x17,0x17,";
"    0x17,0x17,0x17,0x17,0x17,0x17,0x17,0x17,5,5,5,5,6,6,0,0,";
"    5,5,5,5,5,5,5,5,5,5,5,5,5,5,5,5,";
"    8,8,8,6,6,6,6,6,6,6,6,8,8,6,8,6,";
"    6,0x17,0x17,0x17,5,0,0,0,0,0,0,0,0,0,0,0,";
"    0x49,0x89,0xc9,0x109,0x149,0x189,0x1c9,0x209,0x249,0x289,0,0,0,0,0,0,";
"    0x17,0x17,0x17,0x17,0x17,0x17,0x17,0x17,0x17,0x17,0x17,0x17,0x17,0,0,0,";
"    0,0,0,0,0,0,0,0,0,0,0,0,0,0,0,0,";
"    0x49,0x89,0xc9,0x109,0x149,0x189,0x1c9,0x209,0x249,0x289,0,0,0,0,0,0,";
"    0,0,0,0,0,0,0,0,0,0,0,0,0,0,0,0,";
"    5,5,5,5,5,5,5,5,5,5,5,6,8,6,8,8,";
"    6,6,6,6,6,6,8,6,5,0,0,0,0,0,0,0,";
"    8,8,6,6,6,6,8,6,6,6,6,6,0,0,0,0,";
"    0x49,0x89,0xc9,0x109,0x149,0x189,0x1c9,0x209,0x249,0x289,0x7cb,0xa4b,0x17,0x17,0x17,0x1b,";
"    5,5,5,5,5,5,5,5,5,5,5,5,8,8,8,6,";
"    6,6,6,6,6,6,6,6,8,6,6,0x17,0,0,0,0,";
"    0x49,0x89,0xc9,0x109,0x149,0x189,0x1c9,0x209,0x249,0x289,0x7cb,0xa4b,0xccb,0xf4b,0x11cb,0x144b,";
"    0x16cb,0x194b,0x1bcb,0,0,0,0,0,0,0,0,0,0,0,0,5,";
"    8,5,8,6,0x17,0x17,0x17,0,0,0,0,0,0,0,0,0,";
"    0x49,0x89,0xc9,0x109,0x149,0x189,0x1c9,0x209,0x249,0x289,0,0,0,0,0,0,";
"    5,5,5,5,5,5,5,0,0,5,0,0,5,5,5,5,";
"    5,5,5,5,0,5,5,0,5,5,5,5,5,5,5,5,";
"    5,5,5,5,5,5,5,5,8,8,8,8,8,8,0,8,";
"    8,0,0,6,6,8,6,5,6,5,0x17,5,8,0,0,0,";
"    0,0,0,0,0,0,0,0,0,0,0,0,0,0,0,0,";
"    0,0,0,0,0,0,0,0,5,5,5,5,5,5,5,5,";
"    0,0,5,5,5,5,5,5,5,5,5,5,5,5,5,5,";
"    5,5,5,5,5,5,5,5,5,8,8,8,6,6,6,6,";
"    0,0,6,6,8,8,8,8,5,5,5,5,5,5,5,5,";
"    5,5,5,5,5,5,5,5,5,5,5,6,6,6,6,6,";
"    6,8,5,6,6,6,6,0x17,0x17,0x17,0x17,0x17,0x17,0x17,0x17,6,";
"    0,0,0,0,0,0,0,0,5,6,6,6,6,6,6,8,";
"    8,6,6,6,5,5,5,5,5,6,6,6,6,6,6,6,";
"    6,6,6,5,5,5,5,5,5,5,5,5,5,5,5,5,";
"    5,5,5,5,5,5,5,5,0x17,0x17,0x17,0,0,0,0,0,";
"    0,0,0,0,0,0,0,0,0,0,0,0,0,0,0,0,";
"    0,0,0,0,0,0,0,0,5,5,5,5,5,5,5,5,";
"    5,5,6,6,6,6,6,6,6,6,6,6,6,6,6,8,";
"    6,6,0x17,0x17,0x17,5,0x17,0x17,5,0x17,0x17,0x17,0x17,0x17,0,0,";
"    0,0,0,0,0,0,0,0,0x49,0x89,0xc9,0x109,0x149,0x189,0x1c9,0x209,";
"    0x249,0x289,0x58b,0x5cb,0x60b,0x64b,0x68b,0x6cb,0x70b,0x74b,0x78b,0x7cb,0xa4b,0xccb,0xf4b,0x11cb,";
"    0x144b,0x16cb,0x194b,0x1bcb,0x1e4b,0,0,0,0x17,0x17,5,5,5,5,5,5,";
"    5,5,5,5,5,5,5,5,5,0,5,5,5,5,5,5,";
"    5,5,5,5,5,5,5,5,5,5,5,5,5,5,5,5,";
"    5,5,5,8,6,6,6,6,6,6,6,0,6,6,6,6,";
"    6,6,8,6,6,6,6,6,6,6,6,6,0,8,6,6,";
"    6,6,6,6,6,8,6,6,8,6,6,0,0,0,0,0,";
"    0,0,0,0,5,5,5,5,5,5,5,5,5,5,5,5,";
"    5,5,5,5,0,0,6,6,6,6,6,6,6,6,6,6,";
"    6,6,6,6,6,6,5,6,0,0,0,0,0,0,0,0,";
"    0x49,0x89,0xc9,0x109,0x149,0x189,0x1c9,0x209,0x249,0x289,0,0,0,0,0,0,";
"    5,5,5,5,5,5,5,0,5,5,0,5,5,5,5,5,";
"    5,5,5,5,5,5,5,5,5,5,5,5,5,5,5,5,";
"    5,6,6,6,6,6,6,0,0,0,6,0,6,6,0,6,";
"    5,5,5,5,5,5,5,5,5,5,8,8,8,8,8,0,";
"    6,6,0,8,8,6,8,6,5,0,0,0,0,0,0,0,";
"    5,5,5,5,5,5,0,5,5,0,5,5,5,5,5,5,";
"    5,5,5,5,5,5,5,5,5,5,5,5,5,5,5,5,";
"    5,5,5,6,6,8,8,0x17,0x17,0,0,0,0,0,0,0,";
"    0,0,0,0,0,0,0,0,0,0,0,0,5,0,0,0,";
"    0,0,0,0,0,0,0,0,0,0,0,0,0x19,0x1b,0x1b,0x1b,";
"    0x1b,0x1b,0x1b,0x1b,0x1b,0x1b,0x1b,0x1b,0x1b,0x1b,0x1b,0x1b,0x1b,0x1b,0,0,";
"    0,0,0,0,0,0,0,0,0,0,0,0x17,0xcd0b,0xcc0b,0xcb0b,0xd00b,";
"    0xca0b,0xcf0b,0xcb4b,0xd04b,0xc90b,0x37cb,0x37cb,0x364b,0x35cb,0xc94b,0x3fcb,0x350b,0x34cb,0x344b,0x344b,0x3ccb,";
"    0xcd0b,0x1b,0x1b,0x1b,0x1b,0x1b,0x1b,0x1b,0x1b,0x19,0x19,0x19,0x34ca,0x354a,0x34ca,0x34ca,";
"    0x344a,0x348a,0x388a,0xf4a,0x11ca,0x64a,0x68a,0x6ca,0x70a,0x74a,0x78a,0,0x17,0x17,0x17,0x17,";
"    0x17,0,0,0,0,0,0,0,0,0,0,0,0x5ca,0x60a,0x64a,0x68a,";
"    0x6ca,0x70a,0x74a,0x78a,0x60a,0x64a,0x68a,0x6ca,0x70a,0x74a,0x78a,0x64a,0x68a,0x6ca,0x70a,0x74a,";
"    0x78a,0x58a,0x5ca,0x60a,0x64a,0x68a,0x6ca,0x70a,0x74a,0x78a,0x58a,0x5ca,0x60a,0x64a,0x68a,0x5ca,";
"    0x60a,0x60a,0x64a,0x68a,0x6ca,0x70a,0x74a,0x78a,0x58a,0x5ca,0x60a,0x60a,0x64a,0x68a,0xc08a,0xc18a,";
"    0x58a,0x5ca,0x60a,0x60a,0x64a,0x68a,0x60a,0x60a,0x64a,0x64a,0x64a,0x64a,0x6ca,0x70a,0x70a,0x70a,";
"    0x74a,0x74a,0x78a,0x78a,0x78a,0x78a,0x5ca,0x60a,0x64a,0x68a,0x6ca,0x58a,0x5ca,0x60a,0x64a,0x64a,";
"    0x68a,0x68a,0x5ca,0x60a,0x58a,0x5ca,0x348a,0x388a,0x454a,0x348a,0x388a,0x35ca,5,5,5,5,";
"    0,0,0,0,0,0,0,0,0,0,0,0,0,0,0,0,";
"    0,0,0,0,0,0,0,0,0,0,0,0,5,5,5,5,";
"    5,5,5,5,5,5,5,5,5,5,5,0,0x10,0x10,0x10,0x10,";
"    0x10,0x10,0x10,0x10,0x10,0,0,0,0,0,0,0,5,5,5,5,";
"    5,5,5,0,0,0,0,0,0,0,0,0,0,0,0,0,";
"    0,0,0,0,0,0,0,0,0,0,0,0,0x49,0x89,0xc9,0x109,";
"    0x149,0x189,0x1c9,0x209,0x249,0x289,0,0,0,0,0x17,0x17,0,0,0,0,";
"    0,0,0,0,0,0,0,0,0,0,0,0,5,5,5,5,";
"    5,5,5,5,5,5,5,5,5,5,0,0,6,6,6,6,";
"    6,0x17,0,0,0,0,0,0,0,0,0,0,5,5,5,5,";
"    5,5,5,5,5,5,5,5,5,5,5,5,0,0,0,0,";
"    0,0,0,0,0,0,0,0,0,0,0,0,5,5,5,5,";
"    5,5,5,5,5,5,5,5,5,5,5,5,6,6,6,6,";
"    6,6,6,0x17,0x17,0x17,0x17,0x17,0x1b,0x1b,0x1b,0x1b,4,4,4,4,";
"    0x17,0x1b,0,0,0,0,0,0,0,0,0,0,0x49,0x89,0xc9,0x109,";
"    0x149,0x189,0x1c9,0x209,0x249,0x289,0,0x7cb,0x1e4b,0x788b,0x790b,0x798b,0x7a0b,0x7a8b,0,5,";
"    5,5,5,5,5,5,5,5,5,5,5,5,5,5,5,5,";
"    5,5,5,5,0,0,0,0,0,5,5,5,0x54b,0x58b,0x5cb,0x60b,";
"    0x64b,0x68b,0x6cb,0x70b,0x74b,0x78b,0x7cb,0x80b,0x84b,0x88b,0x8cb,0x90b,0x94b,0x98b,0x9cb,0xa0b,";
"    0x58b,0x5cb,0x60b,0x17,0x17,0x17,0x17,0,0,0,0,0,5,5,5,5,";
"    5,5,5,5,5,5,5,0,0,0,0,6,5,8,8,8,";
"    8,8,8,8,8,8,8,8,8,8,8,8,8,8,8,8,";
"    8,8,8,8,8,8,8,8,8,8,8,8,8,8,8,8,";
"    0,0,0,0,0,0,0,6,6,6,6,4,4,4,4,4,";
"    4,4,4,4,4,4,4,4,4,4,0x17,4,6,0,0,0,";
"    0,0,0,0,0,0,0,0,8,8,0,0,0,0,0,0,";
"    0,0,0,0,0,0,0,0,5,5,5,5,5,5,5,5,";
"    5,5,5,5,5,5,5,5,5,5,5,5,5,5,5,5,";
"    0,0,0,0,0,0,0,0,0,0,0,0,0,0,0,0,";
"    5,5,5,0,0,0,0,0,0,0,0,0,0,0,0,0,";
"    5,5,5,5,0,0,0,0,0,0,0,0,5,5,5,5,";
"    5,5,5,5,5,5,5,5,5,5,5,5,5,5,5,0,";
"    0,0,0,0,5,5,5,5,5,5,5,5,5,5,5,5,";
"    5,0,0,0,0,0,0,0,5,5,5,5,5,5,5,5,";
"    5,5,0,0,0x1b,6,6,0x17,0x10,0x10,0x10,0x10,0,0,0,0,";
"    0,0,0,0,0,0,0,0,0,0,0,0,0,0,0,0,";
"    0,0,0,0,0,0,0,0,0x1b,0x1b,0x1b,0x1b,0x1b,0x1b,0x1b,0,";
"    0,0x1b,0x1b,0x1b,0x1b,0x1b,0x1b,0x1b,0x1b,0x1b,0x1b,0x1b,0x1b,0x1b,0x1b,0x1b,";
"    0x1b,0x1b,0x1b,0x1b,0x1b,0x1b,0x1b,0x1b,0x1b,8,8,6,6,6,0x1b,0x1b,";
"    0x1b,8,8,8,8,8,8,0x10,0x10,0x10,0x10,0x10,0x10,0x10,0x10,6,";
"    6,6,6,6,6,6,6,0x1b,0x1b,6,6,6,6,6,6,6,";
"    0x1b,0x1b,0x1b,0x1b,0x1b,0x1b,0x1b,0x1b,0x1b,0x1b,0x1b,0x1b,0x1b,0x1b,0x1b,0x1b,";
"    0x1b,0x1b,0x1b,0x1b,0x1b,0x1b,6,6,6,6,0x1b,0x1b,0x1b,0x1b,0x1b,0x1b,";
"    0x1b,0x1b,0x1b,0x1b,0x1b,0x1b,0x1b,0x1b,0x1b,0x1b,0x1b,0x1b,0x1b,0,0,0,";
"    0,0,0,0,0,0,0,0,0,0,0,0,0,0,0,0,";
"    0,0,0,0,0x1b,0x1b,6,6,6,0x1b,0,0,0,0,0,0,";
"    0,0,0,0,0,0,0,0,0,0,0,0,0,0,0,0,";
"    0,0,0,0,0x54b,0x58b,0x5cb,0x60b,0x64b,0x68b,0x6cb,0x70b,0x74b,0x78b,0x7cb,0x80b,";
"    0x84b,0x88b,0x8cb,0x90b,0x94b,0x98b,0x9cb,0xa0b,0,0,0,0,0,0,0,0,";
"    0,0,0,0,0x58b,0x5cb,0x60b,0x64b,0x68b,0x6cb,0x70b,0x74b,0x78b,0x7cb,0xa4b,0xccb,";
"    0xf4b,0x11cb,0x144b,0x16cb,0x194b,0x1bcb,0x58b,0x5cb,0x60b,0x64b,0x68b,0x58b,0x68b,0,0,0,";
"    0,0,0,0,0x249,0x289,0x49,0x89,0xc9,0x109,0x149,0x189,0x1c9,0x209,0x249,0x289,";
"    0x49,0x89,0xc9,0x109,0x149,0x189,0x1c9,0x209,0x249,0x289,0x49,0x89,0xc9,0x109,0x149,0x189,";
"    0x1c9,0x209,0x249,0x289,1,1,1,1,1,1,1,1,1,1,1,1,";
"    1,1,1,1,1,1,1,1,1,1,1,1,1,1,2,2,";
"    2,2,2,2,2,2,2,2,2,2,2,2,2,2,2,2,";
"    2,2,2,2,1,1,1,1,1,1,1,1,1,1,1,1,";
"    1,1,2,2,2,2,2,2,2,0,2,2,2,2,2,2,";
"    2,2,2,2,1,1,1,1,1,1,1,1,1,1,1,1,";
"    1,1,1,1,1,1,1,1,1,1,1,1,1,1,2,2,";
"    2,2,2,2,2,2,2,2,2,2,2,2,2,2,2,2,";
"    2,2,2,2,2,2,2,2,1,0,1,1,0,0,1,0,";
"    0,1,1,0,0,1,1,1,1,0,1,1,1,1,1,1,";
"    1,1,2,2,2,2,0,2,0,2,2,2,2,2,2,2,";
"    0,2,2,2,2,2,2,2,2,2,2,2,1,1,1,1,";
"    1,1,1,1,1,1,1,1,1,1,1,1,2,2,2,2,";
"    1,1,0,1,1,1,1,0,0,1,1,1,1,1,1,1,";
"    1,0,1,1,1,1,1,1,1,0,2,2,2,2,2,2,";
"    2,2,2,2,2,2,2,2,2,2,2,2,2,2,2,2,";
"    2,2,2,2,1,1,0,1,1,1,1,0,1,1,1,1,";
"    1,0,1,0,0,0,1,1,1,1,1,1,1,0,2,2,";
"    2,2,2,2,2,2,2,2,2,2,2,2,1,1,1,1,";
"    1,1,1,1,1,1,1,1,1,1,1,1,1,1,1,1,";
"    1,1,2,2,2,2,2,2,2,2,2,2,2,2,2,2,";
"    2,2,2,2,2,2,2,2,2,2,2,2,1,1,1,1,";
"    1,1,1,1,1,1,1,1,1,1,1,1,2,2,2,2,";
"    2,2,0,0,1,1,1,1,1,1,1,1,1,1,1,1,";
"    1,1,1,1,1,1,1,1,1,1,1,1,1,0x18,2,2,";
"    2,2,2,2,2,2,2,2,2,2,2,2,2,2,2,2,";
"    2,2,2,2,2,2,2,0x18,2,2,2,2,2,2,1,1,";
"    1,1,1,1,1,1,1,1,1,1,1,1,1,1,1,1,";
"    1,1,1,1,1,1,1,0x18,2,2,2,2,2,2,2,2,";
"    2,2,2,2,2,2,2,2,2,2,2,2,2,0x18,2,2,";
"    2,2,2,2,1,1,1,1,1,1,1,1,1,1,1,1,";
"    1,1,1,1,2,2,2,0x18,2,2,2,2,2,2,1,2,";
"    0,0,0x49,0x89,0xc9,0x109,0x149,0x189,0x1c9,0x209,0x249,0x289,0x49,0x89,0xc9,0x109,";
"    0x149,0x189,0x1c9,0x209,0,6,6,6,6,6,6,6,6,6,6,6,";
"    6,6,6,6,0,0,0,0,0,0,0,0,0,0,0,0,";
"    0,0,0,0,6,6,6,6,6,6,6,6,6,6,6,6,";
"    6,6,6,6,6,6,6,6,6,6,6,0x1b,0x1b,0x1b,0x1b,6,";
"    6,6,6,6,6,6,6,6,6,6,6,6,6,0x1b,0x1b,0x1b,";
"    0x1b,0x1b,0x1b,0x1b,0x1b,6,0x1b,0x1b,0x1b,0x1b,0x1b,0x1b,0x1b,0x1b,0x1b,0x1b,";
"    6,0x1b,0x1b,0x17,0x17,0x17,0x17,0x17,0,0,0,0,0,0,0,0,";
"    0,0,0,0,0,0,0,6,6,6,6,6,6,6,6,0,";
"    6,6,6,6,6,6,6,6,6,6,6,6,6,6,6,6,";
"    6,0,0,6,6,6,6,6,6,6,0,6,6,0,6,6,";
"    6,6,6,0,0,0,0,0,0,0,0,0,0,0,0,0,";
"    0,0,0,0,0,0,0,0,0x49,0x89,0xc9,0x109,0x149,0x189,0x1c9,0x209,";
"    0x249,0x289,0,0,0,0,5,0x1b,0,0,0,0,0,0,0,0,";
"    0,0,0,0,0,0,0,0,5,5,5,5,5,5,5,5,";
"    5,5,5,5,5,0,0,0,6,6,6,6,6,6,6,4,";
"    4,4,4,4,4,4,0,0,5,5,5,5,5,5,5,5,";
"    5,5,5,5,6,6,6,6,0x49,0x89,0xc9,0x109,0x149,0x189,0x1c9,0x209,";
"    0x249,0x289,0,0,0,0,0,0x19,5,5,5,5,5,0,0,0x58b,";
"    0x5cb,0x60b,0x64b,0x68b,0x6cb,0x70b,0x74b,0x78b,6,6,6,6,6,6,6,0,";
"    0,0,0,0,0,0,0,0,2,2,2,2,6,6,6,6,";
"    6,6,6,4,0,0,0,0,0x49,0x89,0xc9,0x109,0x149,0x189,0x1c9,0x209,";
"    0x249,0x289,0,0,0,0,0x17,0x17,1,1,2,2,2,2,2,2,";
"    2,2,2,2,2,2,2,2,2,2,2,2,2,2,2,2,";
"    2,2,2,2,2,2,2,2,0,0,0,0,0,0,0,0,";
"    0,0,0,0,0,0,0,0,0,0x58b,0x5cb,0x60b,0x64b,0x68b,0x6cb,0x70b,";
"    0x74b,0x78b,0x7cb,0xa4b,0xccb,0xf4b,0x11cb,0x144b,0x78cb,0x794b,0x814b,0x58b,0x5cb,0x60b,0x64b,0x68b,";
"    0x6cb,0x70b,0x74b,0x78b,0x1b,0x34cb,0x344b,0x3ccb,0x19,0x58b,0x5cb,0x788b,0x78cb,0,0,0,";
"    0,0,0,0,0,0,0,0,0x16cb,0x194b,0x1bcb,0x1e4b,0x800b,0x880b,0x900b,0x980b,";
"    0xa00b,0xa80b,0xb00b,0xb80b,0x784b,0x804b,0x884b,0x904b,0x984b,0xa04b,0xa84b,0xb04b,0xb84b,0x788b,0x808b,0x888b,";
"    0x908b,0x988b,0xa08b,0xa88b,0xb08b,0xb88b,0x78cb,0x80cb,0x984b,0xa04b,0xa84b,0xb04b,0xb84b,0x788b,0x808b,0x888b,";
"    0x908b,0x988b,0xa08b,0xa88b,0xb08b,0xb88b,0x1b,0x5cb,0x60b,0x64b,0x68b,0x6cb,0x70b,0x74b,0x78b,0x7cb,";
"    0x900b,0xa00b,0x804b,0x788b,0x344b,0x354b,0,0,0,0x58b,0x5cb,0x60b,0x64b,0x68b,0x6cb,0x70b,";
"    0x74b,0x78b,0x7cb,0xa4b,0xccb,0xf4b,0x11cb,0x144b,0x16cb,0x194b,0x1bcb,0x1e4b,0x800b,0x880b,0x900b,0x980b,";
"    0xa00b,0xa80b,0xb00b,0xb80b,0x784b,0x804b,0x884b,0x904b,0,0,0,0,0,0,0,0,";
"    0,0,0,0,0,0,0,0,0x18,0x18,0,0,0,0,0,0,";
"    0,0,0,0,0,0,0,0,5,5,5,5,0,5,5,5,";
"    5,5,5,5,5,5,5,5,5,5,5,5,5,5,5,5,";
"    5,5,5,5,5,5,5,5,0,5,5,0,5,0,0,5,";
"    0,5,5,5,5,5,5,5,5,5,5,0,5,5,5,5,";
"    0,5,0,5,0,0,0,0,0,0,5,0,0,0,0,5,";
"    0,5,0,5,0,5,5,5,0,5,5,0,5,0,0,5,";
"    0,5,0,5,0,5,0,5,0,5,5,0,5,0,0,5,";
"    5,5,5,0,5,5,5,5,5,5,5,0,5,5,5,5,";
"    0,5,5,5,5,0,5,0,5,5,5,5,5,5,5,5,";
"    5,5,0,5,5,5,5,5,5,5,5,5,5,5,5,5,";
"    5,5,5,5,0,0,0,0,0,5,5,5,0,5,5,5,";
"    5,5,0,5,5,5,5,5,5,5,5,5,5,5,5,5,";
"    5,5,5,5,0,0,0,0,0x1b,0x1b,0x1b,0x1b,0x1b,0x1b,0x1b,0x1b,";
"    0x1b,0x1b,0x1b,0x1b,0,0,0,0,0x1b,0x1b,0x1b,0x1b,0x1b,0x1b,0x1b,0x1b,";
"    0x1b,0x1b,0x1b,0x1b,0x1b,0x1b,0x1b,0x1b,0x1b,0x1b,0x1b,0,0,0x1b,0x1b,0x1b,";
"    0x1b,0x1b,0x1b,0x1b,0x1b,0x1b,0x1b,0x1b,0x1b,0x1b,0x1b,0x1b,0,0x1b,0x1b,0x1b,";
"    0x1b,0x1b,0x1b,0x1b,0x1b,0x1b,0x1b,0x1b,0x1b,0x1b,0x1b,0x1b,0x2cb,0x2cb,0x30b,0x34b,";
"    0x38b,0x3cb,0x40b,0x44b,0x48b,0x4cb,0x50b,0x54b,0x54b,0x1b,0x1b,0x1b,0x1b,0x1b,0x1b,0x1b,";
"    0x1b,0x1b,0x1b,0x1b,0x1b,0x1b,0x1b,0x1b,0x1b,0x1b,0x1b,0x1b,0,0,0,0,";
"    0,0,0x1b,0x1b,0x1b,0x1b,0x1b,0x1b,0x1b,0x1b,0x1b,0x1b,0x1b,0x1b,0x1b,0x1b,";
"    0x1b,0x1b,0x1b,0x1b,0x1b,0x1b,0x1b,0x1b,0x1b,0x1b,0x1b,0x1b,0x1b,0x1b,0x1b,0,";
"    0,0,0,0,0,0,0,0,0,0,0,0,0x1b,0x1b,0x1b,0x1b,";
"    0x1b,0x1b,0x1b,0x1b,0x1b,0x1b,0x1b,0x1b,0x1b,0x1b,0x1b,0x1b,0x1b,0x1b,0x1b,0x1b,";
"    0x1b,0x1b,0x1b,0x1b,0x1b,0x1b,0x1b,0x1b,0,0,0,0,0x1b,0x1b,0x1b,0x1b,";
"    0x1b,0x1b,0x1b,0x1b,0x1b,0,0,0,0,0,0,0,0x1b,0x1b,0,0,";
"    0,0,0,0,0,0,0,0,0,0,0,0,0x1b,0x1b,0x1b,0x1b,";
"    0x1b,0x1b,0,0,0,0,0,0,0,0,0,0,0,0,0,0,";
"    0,0,0,0,0,0,0,0,0,0,0,0,0x1b,0x1b,0x1b,0x1b,";
"    0x1b,0x1b,0x1b,0x1b,0x1b,0x1b,0x1b,0x1b,0x1b,0x1b,0x1b,0x1b,0x1b,0x1b,0x1b,0x1b,";
"    0x1b,0x1b,0x1b,0x1b,0x1b,0x1b,0x1b,0x1a,0x1a,0x1a,0x1a,0x1a,0x1b,0x1b,0x1b,0x1b,";
"    0x1b,0x1b,0x1b,0x1b,0x1b,0x1b,0x1b,0x1b,0x1b,0x1b,0x1b,0x1b,0x1b,0x1b,0x1b,0x1b,";
"    0x1b,0x1b,0x1b,0x1b,0,0,0,0,0,0,0,0,0x1b,0x1b,0x1b,0x1b,";
"    0x1b,0x1b,0x1b,0x1b,0x1b,0x1b,0x1b,0x1b,0x1b,0,0,0,0x1b,0x1b,0x1b,0x1b,";
"    0x1b,0x1b,0x1b,0x1b,0x1b,0x1b,0x1b,0x1b,0x1b,0,0,0,0x1b,0x1b,0x1b,0x1b,";
"    0x1b,0x1b,0x1b,0x1b,0x1b,0x1b,0x1b,0x1b,0x1b,0x1b,0x1b,0x1b,0x1b,0x1b,0x1b,0x1b,";
"    0x1b,0x1b,0x1b,0x1b,0x1b,0,0,0,0,0,0,0,0x1b,0x1b,0x1b,0x1b,";
"    0x1b,0x1b,0x1b,0x1b,0x1b,0x1b,0x1b,0x1b,0,0,0,0,0,0,0,0,";
"    0,0,0,0,0,0,0,0,0,0,0,0,0x1b,0x1b,0x1b,0x1b,";
"    0x1b,0x1b,0x1b,0x1b,0,0,0,0,0,0,0,0,0x1b,0x1b,0x1b,0x1b,";
"    0x1b,0x1b,0x1b,0x1b,0x1b,0x1b,0,0,0,0,0,0,0x1b,0x1b,0x1b,0x1b,";
"    0x1b,0x1b,0x1b,0x1b,0,0,0,0,0,0,0,0,0x1b,0x1b,0x1b,0x1b,";
"    0x1b,0x1b,0x1b,0x1b,0x1b,0x1b,0x1b,0x1b,0x1b,0x1b,0x1b,0x1b,0x1b,0x1b,0,0,";
"    0x1b,0x1b,0,0,0,0,0,0,0,0,0,0,0,0,0,0,";
"    0x1b,0x1b,0x1b,0x1b,0x1b,0x1b,0x1b,0x1b,0x1b,0x1b,0x1b,0x1b,0x1b,0x1b,0x1b,0x1b,";
"    0x1b,0x1b,0x1b,0x1b,0x1b,0x1b,0x1b,0x1b,0x1b,0,0x1b,0x1b,0x1b,0x1b,0x1b,0x1b,";
"    0x1b,0x1b,0x1b,0x1b,0x1b,0x1b,0x1b,0x1b,0,0x1b,0x1b,0x1b,0x1b,0x1b,0x1b,0x1b,";
"    0x1b,0x1b,0x1b,0x1b,0x1b,0x1b,0x1b,0x1b,0x1b,0x1b,0x1b,0x1b,0x1b,0x1b,0,0,";
"    0x1b,0x1b,0x1b,0x1b,0x1b,0,0,0,0x1b,0x1b,0x1b,0,0,0,0,0,";
"    0x1b,0x1b,0x1b,0x1b,0x1b,0x1b,0x1b,0,0,0,0,0,0,0,0,0,";
"    0x1b,0x1b,0x1b,0x1b,0x1b,0x1b,0x1b,0x1b,0x1b,0x1b,0x1b,0x1b,0x1b,0x1b,0x1b,0x1b,";
"    0x1b,0,0,0,0,0,0,0,0x1b,0x1b,0x1b,0x1b,0x1b,0x1b,0x1b,0,";
"    0,0,0,0,0,0,0,0,0,0,0,0,0x1b,0x1b,0x1b,0x1b,";
"    0x1b,0x1b,0x1b,0,0,0,0,0,0,0,0,0,0x1b,0x1b,0x1b,0x1b,";
"    0x1b,0x1b,0x1b,0x1b,0x1b,0x1b,0x1b,0x1b,0x1b,0x1b,0x1b,0x1b,0x1b,0x1b,0x1b,0,";
"    0x1b,0x1b,0x1b,0x1b,0x1b,0x1b,0x1b,0x1b,0x1b,0x1b,0x1b,0x1b,5,0x705,5,5,";
"    5,5,5,5,5,5,5,5,5,5,5,5,5,5,5,5,";
"    5,5,5,5,5,5,5,5,5,5,5,5,0x645,5,5,5,";
"    5,5,5,5,5,5,5,5,5,5,5,5,5,5,5,5,";
"    5,5,5,5,5,5,5,5,5,5,0x645,5,5,5,5,5,";
"    5,5,5,5,5,5,5,5,5,5,5,5,5,5,5,5,";
"    5,5,5,5,5,5,5,5,5,0x685,5,5,5,5,5,5,";
"    5,5,5,5,5,5,5,5,5,5,5,5,5,5,5,5,";
"    5,5,5,5,5,5,5,5,5,5,5,0xcc5,5,5,5,5,";
"    5,5,5,5,0xf45,5,5,5,5,5,5,5,5,5,5,5,";
"    5,5,5,5,0xf45,5,5,5,5,5,5,5,5,5,5,5,";
"    5,5,0x6c5,5,5,5,5,5,5,5,5,5,5,5,5,5,";
"    5,5,5,5,5,0x605,5,5,5,5,5,5,5,5,5,5,";
"    5,5,5,5,5,5,5,5,5,5,5,5,5,5,5,5,";
"    5,0x605,5,5,5,5,5,5,5,5,5,5,5,5,5,5,";
"    5,5,5,5,5,5,5,5,5,5,5,5,0x605,5,5,5,";
"    5,5,5,5,5,5,5,5,5,5,5,5,5,5,5,5,";
"    5,5,5,5,5,5,5,5,5,5,5,0x605,5,5,5,5,";
"    5,5,5,5,5,5,5,5,5,0x645,5,5,5,5,5,5,";
"    5,5,5,5,5,5,5,5,5,5,5,5,5,5,5,5,";
"    5,0,0,0,0,0,0,0,0,0,0,0,0,0,0,0,";
"    0,0,0,0,0,0,0,0,0,0,0,0,0,0,0,0,";
"    5,5,5,5,5,5,5,5,5,5,5,5,5,5,5,5,";
"    0x785,5,5,5,5,5,5,5,5,5,5,5,5,5,5,5,";
"    0x10,0x10,0x10,0x10,0x10,0x10,0x10,0x10,0x10,0x10,0x10,0x10,0x10,0x10,0x10,0x10,";
"    0x10,0x10,0x10,0x10,0x10,0x10,0x10,0x10,0x10,0x10,0x10,0x10,0x10,0x10,0x10,0x10,";
"    0,0x10,0,0,0,0,0,0,0,0,0,0,0,0,0,0,";
"    0,0,0,0,0,0,0,0,0,0,0,0,0,0,0,0,";
"    6,6,6,6,6,6,6,6,6,6,6,6,6,6,6,6,";
"    0,0,0,0,0,0,0,0,0,0,0,0,0,0,0,0,";
"    0x11,0x11,0x11,0x11,0x11,0x11,0x11,0x11,0x11,0x11,0x11,0x11,0x11,0x11,0x11,0x11,";
"    0x11,0x11,0x11,0x11,0x11,0x11,0x11,0x11,0x11,0x11,0x11,0x11,0x11,0x11,0,0,";
"    0,0,0,0";
"]";
"";
"propsTrie_index_length = 4532";
"propsTrie_index_2_null_offset = 0xa40";
"propsTrie_data_null_offset = 0x1234";
"propsTrie_high_start = 0x110000";
"propsTrie_high_value_index = 0x5700";
"";
"propsVectorsTrie_index = [";
"    0x4e8,0x4f0,0x4f8,0x500,0x518,0x520,0x528,0x530,0x538,0x540,0x548,0x550,0x558,0x560,0x568,0x570,";
"    0x577,0x57f,0x587,0x58f,0x592,0x59a,0x5a2,0x5aa,0x5b2,0x5ba,0x5c2,0x5ca,0x5d2,0x5da,0x5e2,0x5ea,";
"    0x5f2,0x5fa,0x601,0x609,0x611,0x619,0x621,0x629,0x631,0x639,0x63e,0x646,0x64d,0x655,0x65d,0x665,";
"    0x66d,0x675,0x67d,0x685,0x68c,0x694,0x69c,0x6a4,0x6ac,0x6b4,0x6bc,0x6c4,0x6cc,0x6d4,0x6dc,0x6e4,";
"    0x1a38,0xd5e,0xe35,0x6ec,0x508,0xe9c,0xea4,0x1bf2,0x1300,0x1310,0x12f8,0x1308,0x7c5,0x7cb,0x7d3,0x7db,";
"    0x7e3,0x7e9,0x7f1,0x7f9,0x801,0x807,0x80f,0x817,0x81f,0x825,0x82d,0x835,0x83d,0x845,0x84d,0x854,";
"    0x85c,0x862,0x86a,0x872,0x87a,0x880,0x888,0x890,0x898,0x1318,0x8a0,0x8a8,0x8b0,0x8b7,0x8bf,0x8c7,";
"    0x8cf,0x8d3,0x8db,0x8e2,0x8ea,0x8f2,0x8fa,0x902,0x162c,0x1634,0x90a,0x912,0x91a,0x922,0x92a,0x931,";
"    0x1692,0x1682,0x168a,0x1973,0x197b,0x1328,0x939,0x1320,0x1572,0x1572,0x1574,0x133c,0x133d,0x1330,0x1332,0x1334,";
"    0x169a,0x169c,0x941,0x169c,0x949,0x94e,0x956,0x16a1,0x95c,0x169c,0x962,0x96a,0xc39,0x16a9,0x16a9,0x972,";
"    0x16b9,0x16ba,0x16ba,0x16ba,0x16ba,0x16ba,0x16ba,0x16ba,0x16ba,0x16ba,0x16ba,0x16ba,0x16ba,0x16ba,0x16ba,0x16ba,";
"    0x16ba,0x16ba,0x16ba,0x16b1,0x97a,0x16c2,0x16c2,0x982,0xb59,0xb61,0xb69,0xb71,0x16d2,0x16ca,0x98a,0x992,";
"    0x99a,0x16dc,0x16e4,0x9a2,0x16da,0x9aa,0x1a40,0xd66,0xb79,0xb81,0xb89,0xb8e,0x18e1,0xc6c,0xc73,0x1849,";
"    0xc09,0x1a48,0xd6e,0xd76,0xd7e,0xd86,0xf47,0xf48,0x1939,0x193e,0xca8,0xcb0,0x19af,0x19b7,0x1b11,0xe3d,";
"    0x19bf,0xcf2,0xcfa,0x19c7,0x10f6,0x1196,0xf27,0xd8e,0x1869,0x1851,0x1861,0x1859,0x18f9,0x18f1,0x18b9,0xc19,";
"    0x1345,0x1345,0x1345,0x1345,0x1348,0x1345,0x1345,0x1350,0x9b2,0x1358,0x9b6,0x9be,0x1358,0x9c6,0x9ce,0x9d6,";
"    0x1368,0x1360,0x1370,0x9de,0x9e6,0x1378,0x9ee,0x9f6,0x1380,0x1388,0x1390,0x1398,0x9fe,0x13a0,0x13a7,0x13af,";
"    0x13b7,0x13bf,0x13c7,0x13cf,0x13d7,0x13de,0x13e6,0x13ee,0x13f6,0x13fe,0x1401,0x1403,0x16ec,0x17dc,0x17e2,0x1929,";
"    0x140b,0xa06,0xa0e,0x1525,0x152a,0x152d,0x1535,0x1413,0x153d,0x153d,0x1423,0x141b,0x142b,0x1433,0x143b,0x1443,";
"    0x144b,0x1453,0x145b,0x1463,0x17ea,0x1841,0x1983,0x1ad9,0x1473,0x147a,0x1482,0x148a,0x146b,0x1492,0x17f2,0x17f9,";
"    0x16f4,0x16f4,0x16f4,0x16f4,0x16f4,0x16f4,0x16f4,0x16f4,0x1801,0x1804,0x1801,0x1801,0x180c,0x1813,0x1815,0x181c,";
"    0x1824,0x1828,0x1828,0x182b,0x1828,0x1828,0x1831,0x1828,0x1871,0x1931,0x198b,0xb96,0xb9c,0x1c36,0x1c3e,0x1d15,";
"    0x18d1,0xc49,0xc4d,0x1946,0x18c1,0x18c1,0x18c1,0xc21,0x18c9,0xc41,0x1911,0xc98,0xc29,0xc31,0xc31,0x19cf,";
"    0x1901,0x1993,0xc83,0xc88,0xa16,0x16fc,0x16fc,0xa1e,0x1704,0x1704,0x1704,0x1704,0x1704,0x1704,0xa26,0x6f0,";
"    0x155a,0x157c,0xa2e,0x1584,0xa36,0x158c,0x1594,0x159c,0xa3e,0xa43,0x15a4,0x15ab,0xa48,0x170c,0x1921,0xc11,";
"    0xa50,0x1606,0x160d,0x15b3,0x1615,0x161c,0x15bb,0x15bf,0x15d8,0x15d8,0x15da,0x15c7,0x15cf,0x15cf,0x15d0,0x1624,";
"    0x1714,0x1714,0x1714,0x1714,0x1714,0x1714,0x1714,0x1714,0x1714,0x1714,0x1714,0x1714,0x1714,0x1714,0x1714,0x1714,";
"    0x1714,0x1714,0x1714,0x1714,0x1714,0x1714,0x1714,0x1714,0x1714,0x1714,0x1714,0x1714,0x1714,0x1714,0x1714,0x1714,";
"    0x1714,0x1714,0x1714,0x1714,0x1714,0x1714,0x1714,0x1714,0x1714,0x1714,0x1714,0x1714,0x1714,0x1714,0x1714,0x1714,";
"    0x1714,0x1714,0x1714,0x1714,0x1714,0x1714,0x1714,0x1714,0x1714,0x1714,0x1714,0x1714,0x1714,0x1714,0x1714,0x1714,";
"    0x1714,0x1714,0x1714,0x1714,0x1714,0x1714,0x1714,0x1714,0x1714,0x1714,0x1714,0x1714,0x1714,0x1714,0x1714,0x1714,";
"    0x1714,0x1714,0x1714,0x1714,0x1714,0x1714,0x1714,0x1714,0x1714,0x1714,0x1714,0x1714,0x1714,0x1714,0x1714,0x1714,";
"    0x1714,0x1714,0x1714,0x1714,0x1714,0x1714,0x1714,0x1714,0x1714,0x1714,0x1714,0x1714,0x1714,0x1714,0x1714,0x1714,";
"    0x1714,0x1714,0x1714,0x1714,0x1714,0x1714,0x1714,0x1714,0x1714,0x1714,0x1714,0x1714,0x1714,0x1714,0x1714,0x1714,";
"    0x1714,0x1714,0x1714,0x1714,0x1714,0x1714,0x1714,0x1714,0x1714,0x1714,0x1714,0x1714,0x1714,0x1714,0x1714,0x1714,";
"    0x1714,0x1714,0x1714,0x1714,0x1714,0x1714,0x1714,0x1714,0x1714,0x1714,0x1714,0x1714,0x1714,0x1714,0x1714,0x1714,";
"    0x1714,0x1714,0x1714,0x1714,0x1714,0x1714,0x1714,0x1714,0x1714,0x1714,0x1714,0x1714,0x1714,0x1714,0x1714,0x1714,";
"    0x1714,0x1714,0x1714,0x1714,0x1714,0x1714,0x1714,0x1714,0x1714,0x1714,0x1714,0x1714,0x1714,0x1714,0x1714,0x1714,";
"    0x1714,0x1714,0x1714,0x1714,0x1714,0x1714,0x1714,0x1714,0x1714,0x1714,0x1714,0x1714,0x1714,0x1717,0x1879,0x1879,";
"    0x15e2,0x15e2,0x15e2,0x15e2,0x15e2,0x15e2,0x15e2,0x15e2,0x15e2,0x15e2,0x15e2,0x15e2,0x15e2,0x15e2,0x15e2,0x15e2,";
"    0x15e2,0x15e2,0x15e2,0x15e2,0x15e2,0x15e2,0x15e2,0x15e2,0x15e2,0x15e2,0x15e2,0x15e2,0x15e2,0x15e2,0x15e2,0x15e2,";
"    0x15e2,0x15e2,0x15e2,0x15e2,0x15e2,0x15e2,0x15e2,0x15e2,0x15e2,0x15e2,0x15e2,0x15e2,0x15e2,0x15e2,0x15e2,0x15e2,";
"    0x15e2,0x15e2,0x15e2,0x15e2,0x15e2,0x15e2,0x15e2,0x15e2,0x15e2,0x15e2,0x15e2,0x15e2,0x15e2,0x15e2,0x15e2,0x15e2,";
"    0x15e2,0x15e2,0x15e2,0x15e2,0x15e2,0x15e2,0x15e2,0x15e2,0x15e2,0x15e2,0x15e2,0x15e2,0x15e2,0x15e2,0x15e2,0x15e2,";
"    0x15e2,0x15e2,0x15e2,0x15e2,0x15e2,0x15e2,0x15e2,0x15e2,0x15e2,0x15e2,0x15e2,0x15e2,0x15e2,0x15e2,0x15e2,0x15e2,";
"    0x15e2,0x15e2,0x15e2,0x15e2,0x15e2,0x15e2,0x15e2,0x15e2,0x15e2,0x15e2,0x15e2,0x15e2,0x15e2,0x15e2,0x15e2,0x15e2,";
"    0x15e2,0x15e2,0x15e2,0x15e2,0x15e2,0x15e2,0x15e2,0x15e2,0x15e2,0x15e2,0x15e2,0x15e2,0x15e2,0x15e2,0x15e2,0x15e2,";
"    0x15e2,0x15e2,0x15e2,0x15e2,0x15e2,0x15e2,0x15e2,0x15e2,0x15e2,0x15e2,0x15e2,0x15e2,0x15e2,0x15e2,0x15e2,0x15e2,";
"    0x15e2,0x15e2,0x15e2,0x15e2,0x15e2,0x15e2,0x15e2,0x15e2,0x15e2,0x15e2,0x15e2,0x15e2,0x15e2,0x15e2,0x15e2,0x15e2,";
"    0x15e2,0x15e2,0x15e2,0x15e2,0x15e2,0x15e2,0x15e2,0x15e2,0x15e2,0x15e2,0x15e2,0x15e2,0x15e2,0x15e2,0x15e2,0x15e2,";
"    0x15e2,0x15e2,0x15e2,0x15e2,0x15e2,0x15e2,0x15e2,0x15e2,0x15e2,0x15e2,0x15e2,0x15e2,0x15e2,0x15e2,0x15e2,0x15e2,";
"    0x15e2,0x15e2,0x15e2,0x15e2,0x15e2,0x15e2,0x15e2,0x15e2,0x15e2,0x15e2,0x15e2,0x15e2,0x15e2,0x15e2,0x15e2,0x15e2,";
"    0x15e2,0x15e2,0x15e2,0x15e2,0x15e2,0x15e2,0x15e2,0x15e2,0x15e2,0x15e2,0x15e2,0x15e2,0x15e2,0x15e2,0x15e2,0x15e2,";
"    0x15e2,0x15e2,0x15e2,0x15e2,0x15e2,0x15e2,0x15e2,0x15e2,0x15e2,0x15e2,0x15e2,0x15e2,0x15e2,0x15e2,0x15e2,0x15e2,";
"    0x15e2,0x15e2,0x15e2,0x15e2,0x15e2,0x15e2,0x15e2,0x15e2,0x15e2,0x15e2,0x15e2,0x15e2,0x15e2,0x15e2,0x15e2,0x15e2,";
"    0x15e2,0x15e2,0x15e2,0x15e2,0x15e2,0x15e2,0x15e2,0x15e2,0x15e2,0x15e2,0x15e2,0x15e2,0x15e2,0x15e2,0x15e2,0x15e2,";
"    0x15e2,0x15e2,0x15e2,0x15e2,0x15e2,0x15e2,0x15e2,0x15e2,0x15e2,0x15e2,0x15e2,0x15e2,0x15e2,0x15e2,0x15e2,0x15e2,";
"    0x15e2,0x15e2,0x15e2,0x15e2,0x15e2,0x15e2,0x15e2,0x15e2,0x15e2,0x15e2,0x15e2,0x15e2,0x15e2,0x15e2,0x15e2,0x15e2,";
"    0x15e2,0x15e2,0x15e2,0x15e2,0x15e2,0x15e2,0x15e2,0x15e2,0x15e2,0x15e2,0x15e2,0x15e2,0x15e2,0x15e2,0x15e2,0x15e2,";
"    0x15e2,0x15e2,0x15e2,0x15e2,0x15e2,0x15e2,0x15e2,0x15e2,0x15e2,0x15e2,0x15e2,0x15e2,0x15e2,0x15e2,0x15e2,0x15e2,";
"    0x15e2,0x15e2,0x15e2,0x15e2,0x15e2,0x15e2,0x15e2,0x15e2,0x15e2,0x15e2,0x15e2,0x15e2,0x15e2,0x15e2,0x15e2,0x15e2,";
"    0x15e2,0x15e2,0x15e2,0x15e2,0x15e2,0x15e2,0x15e2,0x15e2,0x15e2,0x15e2,0x15e2,0x15e2,0x15e2,0x15e2,0x15e2,0x15e2,";
"    0x15e2,0x15e2,0x15e2,0x15e2,0x15e2,0x15e2,0x15e2,0x15e2,0x15e2,0x15e2,0x15e2,0x15e2,0x15e2,0x15e2,0x15e2,0x15e2,";
"    0x15e2,0x15e2,0x15e2,0x15e2,0x15e2,0x15e2,0x15e2,0x15e2,0x15e2,0x15e2,0x15e2,0x15e2,0x15e2,0x15e2,0x15e2,0x15e2,";
"    0x15e2,0x15e2,0x15e2,0x15e2,0x15e2,0x15e2,0x15e2,0x15e2,0x15e2,0x15e2,0x15e2,0x15e2,0x15e2,0x15e2,0x15e2,0x15e2,";
"    0x15e2,0x15e2,0x15e2,0x15e2,0x15e2,0x15e2,0x15e2,0x15e2,0x15e2,0x15e2,0x15e2,0x15e2,0x15e2,0x15e2,0x15e2,0x15e2,";
"    0x15e2,0x15e2,0x15e2,0x15e2,0x15e2,0x15e2,0x15e2,0x15e2,0x15e2,0x15e2,0x15e2,0x15e2,0x15e2,0x15e2,0x15e2,0x15e2,";
"    0x15e2,0x15e2,0x15e2,0x15e2,0x15e2,0x15e2,0x15e2,0x15e2,0x15e2,0x15e2,0x15e2,0x15e2,0x15e2,0x15e2,0x15e2,0x15e2,";
"    0x15e2,0x15e2,0x15e2,0x15e2,0x15e2,0x15e2,0x15e2,0x15e2,0x15e2,0x15e2,0x15e2,0x15e2,0x15e2,0x15e2,0x15e2,0x15e2,";
"    0x15e2,0x15e2,0x15e2,0x15e2,0x15e2,0x15e2,0x15e2,0x15e2,0x15e2,0x15e2,0x15e2,0x15e2,0x15e2,0x15e2,0x15e2,0x15e2,";
"    0x15e2,0x15e2,0x15e2,0x15e2,0x15e2,0x15e2,0x15e2,0x15e2,0x15e2,0x15e2,0x15e2,0x15e2,0x15e2,0x15e2,0x15e2,0x15e2,";
"    0x15e2,0x15e2,0x15e2,0x15e2,0x15e2,0x15e2,0x15e2,0x15e2,0x15e2,0x15e2,0x15e2,0x15e2,0x15e2,0x15e2,0x15e2,0x15e2,";
"    0x15e2,0x15e2,0x15e2,0x15e2,0x15e2,0x15e2,0x15e2,0x15e2,0x15e2,0x15e2,0x15e2,0x15e2,0x15e2,0x15e2,0x15e2,0x15e2,";
"    0x15e2,0x15e2,0x15e2,0x15e2,0x15e2,0x15e2,0x15e2,0x15e2,0x15e2,0x15e2,0x15e2,0x15e2,0x15e2,0x15e2,0x15e2,0x15e2,";
"    0x15e2,0x15e2,0x15e2,0x15e2,0x15e2,0x15e2,0x15e2,0x15e2,0x15e2,0x15e2,0x15e2,0x15e2,0x15e2,0x15e2,0x15e2,0x15e2,";
"    0x15e2,0x15e2,0x15e2,0x15e2,0x15e2,0x15e2,0x15e2,0x15e2,0x15e2,0x15e2,0x15e2,0x15e2,0x15e2,0x15e2,0x15e2,0x15e2,";
"    0x15e2,0x15e2,0x15e2,0x15e2,0x15e2,0x15e2,0x15e2,0x15e2,0x15e2,0x15e2,0x15e2,0x15e2,0x15e2,0x15e2,0x15e2,0x15e2,";
"    0x15e2,0x15e2,0x15e2,0x15e2,0x15e2,0x15e2,0x15e2,0x15e2,0x15e2,0x15e2,0x15e2,0x15e2,0x15e2,0x15e2,0x15e2,0x15e2,";
"    0x15e2,0x15e2,0x15e2,0x15e2,0x15e2,0x15e2,0x15e2,0x15e2,0x15e2,0x15e2,0x15e2,0x15e2,0x15e2,0x15e2,0x15e2,0x15e2,";
"    0x15e2,0x15e2,0x15e2,0x15e2,0x15e2,0x15e2,0x15e2,0x15e2,0x15e2,0x15e2,0x15e2,0x15e2,0x15e2,0x15e9,0x1a30,0x12b5,";
"    0x171f,0x1725,0x1725,0x1725,0x1725,0x1725,0x1725,0x1725,0x1725,0x1725,0x1725,0x1725,0x1725,0x1725,0x1725,0x1725,";
"    0x1725,0x1725,0x1725,0x1725,0x1725,0x1725,0x1725,0x1725,0x1725,0x1725,0x1725,0x1725,0x1725,0x1725,0x1725,0x1725,";
"    0x1725,0x1725,0x1725,0x1725,0xa58,0x172d,0xa60,0x1a50,0x19db,0x19db,0x19db,0x19db,0x19db,0x19db,0x19db,0x19db,";
"    0x19d7,0xd02,0x19eb,0x19e3,0x19ed,0x1a58,0x1a58,0xd96,0x18d9,0x194e,0x19a3,0x19a7,0x199b,0x1b09,0xcb8,0xcbb,";
"    0x1909,0xc90,0x1956,0xcc3,0x19f5,0x19f8,0xd0a,0x1a60,0x1a08,0x1a00,0xd12,0xd9e,0x1a68,0x1a6c,0xda6,0xff0,";
"    0x1a10,0xd1a,0xd22,0x1a74,0x1a84,0x1a7c,0xdae,0xef7,0xe45,0xe4d,0x1c85,0xfa8,0x1d32,0x1d32,0x1a8c,0xdb6,";
"    0x1674,0x1675,0x1676,0x1677,0x1678,0x1679,0x167a,0x1674,0x1675,0x1676,0x1677,0x1678,0x1679,0x167a,0x1674,0x1675,";
"    0x1676,0x1677,0x1678,0x1679,0x167a,0x1674,0x1675,0x1676,0x1677,0x1678,0x1679,0x167a,0x1674,0x1675,0x1676,0x1677,";
"    0x1678,0x1679,0x167a,0x1674,0x1675,0x1676,0x1677,0x1678,0x1679,0x167a,0x1674,0x1675,0x1676,0x1677,0x1678,0x1679,";
"    0x167a,0x1674,0x1675,0x1676,0x1677,0x1678,0x1679,0x167a,0x1674,0x1675,0x1676,0x1677,0x1678,0x1679,0x167a,0x1674,";
"    0x1675,0x1676,0x1677,0x1678,0x1679,0x167a,0x1674,0x1675,0x1676,0x1677,0x1678,0x1679,0x167a,0x1674,0x1675,0x1676,";
"    0x1677,0x1678,0x1679,0x167a,0x1674,0x1675,0x1676,0x1677,0x1678,0x1679,0x167a,0x1674,0x1675,0x1676,0x1677,0x1678,";
"    0x1679,0x167a,0x1674,0x1675,0x1676,0x1677,0x1678,0x1679,0x167a,0x1674,0x1675,0x1676,0x1677,0x1678,0x1679,0x167a,";
"    0x1674,0x1675,0x1676,0x1677,0x1678,0x1679,0x167a,0x1674,0x1675,0x1676,0x1677,0x1678,0x1679,0x167a,0x1674,0x1675,";
"    0x1676,0x1677,0x1678,0x1679,0x167a,0x1674,0x1675,0x1676,0x1677,0x1678,0x1679,0x167a,0x1674,0x1675,0x1676,0x1677,";
"    0x1678,0x1679,0x167a,0x1674,0x1675,0x1676,0x1677,0x1678,0x1679,0x167a,0x1674,0x1675,0x1676,0x1677,0x1678,0x1679,";
"    0x167a,0x1674,0x1675,0x1676,0x1677,0x1678,0x1679,0x167a,0x1674,0x1675,0x1676,0x1677,0x1678,0x1679,0x167a,0x1674,";
"    0x1675,0x1676,0x1677,0x1678,0x1679,0x167a,0x1674,0x1675,0x1676,0x1677,0x1678,0x1679,0x167a,0x1674,0x1675,0x1676,";
"    0x1677,0x1678,0x1679,0x167a,0x1674,0x1675,0x1676,0x1677,0x1678,0x1679,0x167a,0x1674,0x1675,0x1676,0x1677,0x1678,";
"    0x1679,0x167a,0x1674,0x1675,0x1676,0x1677,0x1678,0x1679,0x167a,0x1674,0x1675,0x1676,0x1677,0x1678,0x1679,0x167a,";
"    0x1674,0x1675,0x1676,0x1677,0x1678,0x1679,0x167a,0x1674,0x1675,0x1676,0x1677,0x1678,0x1679,0x167a,0x1674,0x1675,";
"    0x1676,0x1677,0x1678,0x1679,0x167a,0x1674,0x1675,0x1676,0x1677,0x1678,0x1679,0x167a,0x1674,0x1675,0x1676,0x1677,";
"    0x1678,0x1679,0x167a,0x1674,0x1675,0x1676,0x1677,0x1678,0x1679,0x167a,0x1674,0x1675,0x1676,0x1677,0x1678,0x1679,";
"    0x167a,0x1674,0x1675,0x1676,0x1677,0x1678,0x1679,0x167a,0x1674,0x1675,0x1676,0x1677,0x1678,0x1679,0x167a,0x1674,";
"    0x1675,0x1676,0x1677,0x1678,0x1679,0x167a,0x1674,0x1675,0x1676,0x1677,0x1678,0x1679,0x167a,0x1674,0x1675,0x1676,";
"    0x1677,0x1678,0x1679,0x167a,0x1674,0x1675,0x1676,0x1677,0x1678,0x1679,0x167a,0x1674,0x1675,0x1676,0x1677,0x1678,";
"    0x1679,0x167a,0x1674,0x1675,0x1676,0x1677,0x1678,0x1679,0x167a,0x1674,0x1675,0x1676,0x1677,0x1678,0x1679,0x167a,";
"    0x1674,0x1675,0x1676,0x1677,0x1678,0x1679,0x167a,0x1674,0x1675,0x1676,0x1677,0x1678,0x1679,0xa68,0xdbe,0xdc1,";
"    0x508,0x508,0x508,0x508,0x508,0x508,0x508,0x508,0x508,0x508,0x508,0x508,0x508,0x508,0x508,0x508,";
"    0x508,0x508,0x508,0x508,0x508,0x508,0x508,0x508,0x508,0x508,0x508,0x508,0x508,0x508,0x508,0x508,";
"    0x164c,0x164c,0x164c,0x164c,0x164c,0x164c,0x164c,0x164c,0x164c,0x164c,0x164c,0x164c,0x164c,0x164c,0x164c,0x164c,";
"    0x164c,0x164c,0x164c,0x164c,0x164c,0x164c,0x164c,0x164c,0x164c,0x164c,0x164c,0x164c,0x164c,0x164c,0x164c,0x164c,";
"    0x1545,0x1545,0x1545,0x1545,0x1545,0x1545,0x1545,0x1545,0x1545,0x1545,0x1545,0x1545,0x1545,0x1545,0x1545,0x1545,";
"    0x1545,0x1545,0x1545,0x1545,0x1545,0x1545,0x1545,0x1545,0x1545,0x1545,0x1545,0x1545,0x1545,0x1545,0x1545,0x1545,";
"    0x1545,0x1545,0x1545,0x1545,0x1545,0x1545,0x1545,0x1545,0x1545,0x1545,0x1545,0x1545,0x1545,0x1545,0x1545,0x1545,";
"    0x1545,0x1545,0x1545,0x1545,0x1545,0x1545,0x1545,0x1545,0x1545,0x1545,0x1545,0x1545,0x1545,0x1545,0x1545,0x1545,";
"    0x1545,0x1545,0x1545,0x1545,0x1545,0x1545,0x1545,0x1545,0x1545,0x1545,0x1545,0x1545,0x1545,0x1545,0x1545,0x1545,";
"    0x1545,0x1545,0x1545,0x1545,0x1545,0x1545,0x1545,0x1545,0x1545,0x1545,0x1545,0x1545,0x1545,0x1545,0x1545,0x1545,";
"    0x1545,0x1545,0x1545,0x1545,0x1545,0x1545,0x1545,0x1545,0x1545,0x1545,0x1545,0x1545,0x1545,0x1545,0x1545,0x1545,";
"    0x1545,0x1545,0x1545,0x1545,0x1545,0x1545,0x1545,0x1545,0x1545,0x1545,0x1545,0x1545,0x1545,0x1545,0x1545,0x1545,";
"    0x1545,0x1545,0x1545,0x1545,0x1545,0x1545,0x1545,0x1545,0x1545,0x1545,0x1545,0x1545,0x1545,0x1545,0x1545,0x1545,";
"    0x1545,0x1545,0x1545,0x1545,0x1545,0x1545,0x1545,0x1545,0x1545,0x1545,0x1545,0x1545,0x1545,0x1545,0x1545,0x1545,";
"    0x1545,0x1545,0x1545,0x1545,0x1545,0x1545,0x1545,0x1545,0x1545,0x1545,0x1545,0x1545,0x1545,0x1545,0x1545,0x1545,";
"    0x1545,0x1545,0x1545,0x1545,0x1545,0x1545,0x1545,0x1545,0x1545,0x1545,0x1545,0x1545,0x1545,0x1545,0x1545,0x1545,";
"    0x1545,0x1545,0x1545,0x1545,0x1545,0x1545,0x1545,0x1545,0x15f1,0x15f1,0x15f1,0x15f1,0x15f1,0x15f1,0x15f1,0x15f1,";
"    0x15f6,0x15fe,0x1839,0x12bd,0x1919,0x1919,0x12c1,0x12c8,0xa70,0xa78,0xa80,0x14b2,0x14b9,0x14c1,0xa88,0x14c9,";
"    0x14fa,0x14fa,0x14a2,0x14aa,0x14d1,0x14f1,0x14f2,0x1502,0x14d9,0x149a,0xa90,0x14e1,0xa98,0x14e9,0xaa0,0xaa4,";
"    0xca0,0x150a,0xaac,0xab4,0x1512,0x1518,0x151d,0xabc,0xacc,0x1562,0x156a,0x154d,0x1552,0xad4,0xadc,0xac4,";
"    0x163c,0x163c,0x163c,0x163c,0x163c,0x163c,0x163c,0x163c,0x163c,0x163c,0x163c,0x163c,0x163c,0x163c,0x163c,0x163c,";
"    0x163c,0x163c,0x163c,0x163c,0x163c,0x163c,0x163c,0x163c,0x163c,0x163c,0x163c,0x163c,0x1644,0x1644,0x1644,0x1644,";
"    0x1420,0x1420,0x1460,0x14a0,0x14e0,0x1520,0x1560,0x15a0,0x15dc,0x161c,0x1648,0x1688,0x16c8,0x1708,0x1748,0x1788,";
"    0x17c8,0x1804,0x1844,0x1884,0x18c4,0x18f8,0x1934,0x1974,0x19b4,0x19f4,0x1a30,0x1a70,0x1ab0,0x1af0,0x1b30,0x1b70,";
"    0xa80,0xac0,0xb00,0xb40,0xb80,0xa40,0xe75,0xa40,0xe97,0xa40,0xa40,0xa40,0xa40,0xbc0,0x12dd,0x12dd,";
"    0xed7,0xc00,0xa40,0xa40,0xa40,0xa40,0xf17,0xc2d,0xa40,0xa40,0xc6d,0xcad,0xced,0xd2d,0xe35,0xda5,";
"    0x121d,0x121d,0x121d,0x121d,0x121d,0x121d,0x121d,0x121d,0x121d,0x121d,0x121d,0x121d,0x121d,0x121d,0x121d,0x121d,";
"    0x121d,0x121d,0x121d,0x121d,0xf57,0x125d,0x1092,0x10d2,0x129d,0x10dd,0x131d,0x131d,0x131d,0xf97,0xfb7,0xff7,";
"    0x135d,0x135d,0x1037,0xfb7,0xfb7,0xfb7,0xfb7,0xfb7,0xfb7,0xfb7,0xfb7,0xfb7,0xfb7,0xfb7,0xfb7,0xfb7,";
"    0xfb7,0xfb7,0xfb7,0xfb7,0xfb7,0xfb7,0xfb7,0xfb7,0xfb7,0xfb7,0xfb7,0xfb7,0xfb7,0xfb7,0xfb7,0x1052,";
"    0xa40,0xa40,0xa40,0xa40,0xa40,0xa40,0xa40,0xa40,0xa40,0xa40,0xa40,0xa40,0xa40,0xa40,0xa40,0xa40,";
"    0xa40,0xa40,0xa40,0xa40,0xa40,0xa40,0xa40,0xa40,0xa40,0xa40,0xa40,0xa40,0xa40,0xa40,0xa40,0xd65,";
"    0xa40,0xa40,0xa40,0xa40,0xa40,0xa40,0xa40,0xa40,0xa40,0xa40,0xa40,0xa40,0xa40,0xa40,0xa40,0xa40,";
"    0xa40,0xa40,0xa40,0xa40,0xa40,0xa40,0xa40,0xa40,0xa40,0xa40,0xa40,0xa40,0xa40,0xa40,0xa40,0xd65,";
"    0xa40,0xa40,0xa40,0xa40,0xa40,0xa40,0xa40,0xa40,0xa40,0xa40,0xa40,0xa40,0xa40,0xa40,0xa40,0xa40,";
"    0xa40,0xa40,0xa40,0xa40,0xa40,0xa40,0xa40,0xa40,0xa40,0xa40,0xa40,0xa40,0xa40,0xa40,0xa40,0xd65,";
"    0xa40,0xa40,0xa40,0xa40,0xa40,0xa40,0xa40,0xa40,0xa40,0xa40,0xa40,0xa40,0xa40,0xa40,0xa40,0xa40,";
"    0xa40,0xa40,0xa40,0xa40,0xa40,0xa40,0xa40,0xa40,0xa40,0xa40,0xa40,0xa40,0xa40,0xa40,0xa40,0xd65,";
"    0xa40,0xa40,0xa40,0xa40,0xa40,0xa40,0xa40,0xa40,0xa40,0xa40,0xa40,0xa40,0xa40,0xa40,0xa40,0xa40,";
"    0xa40,0xa40,0xa40,0xa40,0xa40,0xa40,0xa40,0xa40,0xa40,0xa40,0xa40,0xa40,0xa40,0xa40,0xa40,0xd65,";
"    0xa40,0xa40,0xa40,0xa40,0xa40,0xa40,0xa40,0xa40,0xa40,0xa40,0xa40,0xa40,0xa40,0xa40,0xa40,0xa40,";
"    0xa40,0xa40,0xa40,0xa40,0xa40,0xa40,0xa40,0xa40,0xa40,0xa40,0xa40,0xa40,0xa40,0xa40,0xa40,0xd65,";
"    0xa40,0xa40,0xa40,0xa40,0xa40,0xa40,0xa40,0xa40,0xa40,0xa40,0xa40,0xa40,0xa40,0xa40,0xa40,0xa40,";
"    0xa40,0xa40,0xa40,0xa40,0xa40,0xa40,0xa40,0xa40,0xa40,0xa40,0xa40,0xa40,0xa40,0xa40,0xa40,0xd65,";
"    0xa40,0xa40,0xa40,0xa40,0xa40,0xa40,0xa40,0xa40,0xa40,0xa40,0xa40,0xa40,0xa40,0xa40,0xa40,0xa40,";
"    0xa40,0xa40,0xa40,0xa40,0xa40,0xa40,0xa40,0xa40,0xa40,0xa40,0xa40,0xa40,0xa40,0xa40,0xa40,0xd65,";
"    0xa40,0xa40,0xa40,0xa40,0xa40,0xa40,0xa40,0xa40,0xa40,0xa40,0xa40,0xa40,0xa40,0xa40,0xa40,0xa40,";
"    0xa40,0xa40,0xa40,0xa40,0xa40,0xa40,0xa40,0xa40,0xa40,0xa40,0xa40,0xa40,0xa40,0xa40,0xa40,0xd65,";
"    0xa40,0xa40,0xa40,0xa40,0xa40,0xa40,0xa40,0xa40,0xa40,0xa40,0xa40,0xa40,0xa40,0xa40,0xa40,0xa40,";
"    0xa40,0xa40,0xa40,0xa40,0xa40,0xa40,0xa40,0xa40,0xa40,0xa40,0xa40,0xa40,0xa40,0xa40,0xa40,0xd65,";
"    0xde5,0xdf5,0xa40,0xa40,0xa40,0xa40,0xa40,0xa40,0xa40,0xa40,0xa40,0xa40,0xa40,0xa40,0xa40,0xa40,";
"    0xa40,0xa40,0xa40,0xa40,0xa40,0xa40,0xa40,0xa40,0xa40,0xa40,0xa40,0xa40,0xa40,0xa40,0xa40,0xd65,";
"    0x119d,0x119d,0x119d,0x119d,0x119d,0x119d,0x119d,0x119d,0x119d,0x119d,0x119d,0x119d,0x119d,0x119d,0x119d,0x119d,";
"    0x119d,0x119d,0x119d,0x119d,0x119d,0x119d,0x119d,0x119d,0x119d,0x119d,0x119d,0x119d,0x119d,0x119d,0x119d,0x111d,";
"    0x11dd,0x11dd,0x11dd,0x11dd,0x11dd,0x11dd,0x11dd,0x11dd,0x11dd,0x11dd,0x11dd,0x11dd,0x11dd,0x11dd,0x11dd,0x11dd,";
"    0x11dd,0x11dd,0x11dd,0x11dd,0x11dd,0x11dd,0x11dd,0x11dd,0x11dd,0x11dd,0x11dd,0x11dd,0x11dd,0x11dd,0x11dd,0x115d,";
"    0x508,0x508,0x508,0x508,0x508,0x508,0x508,0x508,0x508,0x508,0x508,0x508,0x508,0x508,0x508,0x508,";
"    0x508,0x508,0x508,0x508,0x508,0x508,0x508,0x508,0x508,0x508,0x508,0x508,0x508,0x508,0x508,0x508,";
"    0x508,0x508,0x508,0x508,0x508,0x508,0x508,0x508,0x508,0x508,0x508,0x508,0x508,0x508,0x508,0x508,";
"    0x508,0x508,0x508,0x508,0x508,0x508,0x508,0x508,0x508,0x508,0x508,0x508,0x508,0x508,0x508,0x508,";
"    0xba4,0xbab,0xbb3,0xbbb,0x1881,0x1881,0x1881,0xbc3,0xbcb,0xbce,0x18b1,0x18a9,0xc01,0xd2a,0xd2e,0xd32,";
"    0x508,0x508,0x508,0x508,0xd3a,0x1a18,0xd42,0xf3f,0x1735,0xae4,0xaea,0x1000,0xbd6,0x18e9,0xc7b,0x508,";
"    0x174a,0x173d,0x1742,0x1889,0xbde,0xbe6,0x1134,0x113a,0x1c6d,0xf5d,0x1c5d,0x6f8,0x508,0x508,0x508,0x508,";
"    0x1c8d,0x1c8d,0x1c8d,0x1c8d,0x1c8d,0x1c8d,0x1c8d,0x1c8d,0x1c8d,0xfb0,0xfb8,0xfc0,0x508,0x508,0x508,0x508,";
"    0xbee,0xbf1,0xdc9,0x1cd5,0xff8,0x700,0x508,0x1092,0xccb,0xd4a,0x508,0x508,0x1c02,0xeff,0xf07,0x1d1d,";
"    0xc55,0xc5c,0xc64,0x1a94,0x1cb5,0x508,0x1c95,0xfd0,0x1a9c,0xdd1,0xdd9,0xde1,0x1020,0x708,0x508,0x508,";
"    0x1aa4,0x1aa4,0x710,0x508,0x1d4a,0x10aa,0x1d42,0x10b2,0x1e0e,0x11ac,0x508,0x508,0x508,0x508,0x508,0x508,";
"    0x508,0x508,0x508,0xde9,0x1e66,0x1291,0x508,0x508,0x1e2e,0x11d4,0x11db,0x718,0x508,0x71c,0x1248,0x11e3,";
"    0x1b19,0x1b1b,0xe55,0xe5c,0x1aac,0x1ab4,0xdf1,0xf1f,0x1bfa,0xee7,0xeef,0xfc8,0x1c1a,0x1c1e,0x1c26,0x1040,";
"    0xf93,0xf98,0x724,0x508,0x109a,0x10a2,0x1c7d,0xfa0,0xf75,0xf7b,0xf83,0xf8b,0x508,0x508,0x508,0x508,";
"    0x1daa,0x1da2,0x1124,0x112c,0x1cfd,0x1cf5,0x1068,0x508,0x508,0x508,0x508,0x508,0x1ce5,0x1028,0x1030,0x1038,";
"    0x1cad,0x1ca5,0xfe0,0x111c,0x1c2e,0xf2f,0x72c,0x508,0x1078,0x1080,0x508,0x508,0x508,0x508,0x508,0x508,";
"    0x1e06,0x118e,0x734,0x508,0x508,0x1d0d,0x1d05,0x1070,0x1250,0x1256,0x125e,0x508,0x508,0x11eb,0x11ef,0x11f7,";
"    0x1dde,0x1dd6,0x1176,0x1dce,0x1dc6,0x73c,0x1cdd,0x1018,0x508,0x508,0x508,0x508,0x508,0x508,0x508,0x508,";
"    0x10da,0x10df,0x10e7,0x10ee,0x110e,0x1114,0x508,0x508,0x115a,0x115e,0x1166,0x119e,0x11a4,0x744,0x508,0x508,";
"    0x508,0x508,0x508,0x508,0x508,0x508,0x508,0x11bc,0x508,0x508,0x508,0x508,0x508,0x748,0x1e4e,0x1238,";
"    0x195e,0x195e,0x195e,0x195e,0x195e,0x195e,0x195e,0x195e,0x195e,0x195e,0x195e,0x195e,0x195e,0x195e,0x195e,0x195e,";
"    0x195e,0x195e,0x195e,0x195e,0x195e,0x195e,0x195e,0x195e,0x195e,0x195e,0x195e,0x1963,0xcd3,0xcda,0xcda,0xcda,";
"    0x196b,0x196b,0x196b,0xce2,0x1d3a,0x1d3a,0x1d3a,0x1d3a,0x1d3a,0x1d3a,0x750,0x508,0x508,0x508,0x508,0x508,";
"    0x508,0x508,0x508,0x508,0x508,0x508,0x508,0x508,0x508,0x508,0x508,0x508,0x508,0x508,0x508,0x508,";
"    0x1b23,0x1b23,0x1b23,0x1b23,0x1b23,0x1b23,0x1b23,0x1b23,0x1b23,0x1b23,0x1b23,0x1b23,0x1b23,0x1b23,0x1b23,0x1b23,";
"    0x1b23,0xe64,0xfe8,0x758,0x508,0x508,0x75c,0xf37,0x1ccd,0x1cc5,0x1008,0x1010,0x764,0x508,0x508,0x508,";
"    0x508,0x508,0x508,0x508,0x508,0x508,0x508,0x508,0x508,0x508,0x508,0x508,0x508,0x508,0x508,0x508,";
"    0x508,0x508,0x1e26,0x1e1e,0x11cc,0x508,0x508,0x508,0x1c12,0x1c12,0xf0f,0x1c0a,0xf17,0x508,0x508,0x1106,";
"    0x1dba,0x1dba,0x1dba,0x1dba,0x1dba,0x1dba,0x1dba,0x1dba,0x1dba,0x1dba,0x1dba,0x1dba,0x1dba,0x1dba,0x1dba,0x1dba,";
"    0x1dba,0x1dba,0x1dba,0x1dba,0x1dba,0x1dba,0x1dba,0x1dbe,0x1e76,0x1e76,0x1e76,0x1e76,0x1e76,0x1e76,0x1e76,0x1e76,";
"    0x1e76,0x1e76,0x1e76,0x1e76,0x1e76,0x1e76,0x1266,0x126c,0x1286,0x1289,0x1289,0x1289,0x76c,0x508,0x508,0x508,";
"    0x508,0x508,0x508,0x508,0x508,0x508,0x508,0x508,0x508,0x508,0x508,0x508,0x508,0x508,0x508,0x508,";
"    0x508,0x508,0x508,0x508,0x508,0x508,0x508,0x508,0x508,0x508,0x508,0x508,0x508,0x1c65,0x1c65,0x1c65,";
"    0xf50,0xf55,0x774,0x508,0x508,0x508,0x508,0x508,0x508,0x508,0x508,0x508,0x508,0x508,0x508,0x508,";
"    0x508,0x508,0x508,0x508,0x508,0x508,0x508,0x508,0x508,0x508,0x508,0x508,0x508,0x1752,0x1752,0x1752,";
"    0x1752,0x1752,0x1752,0x1752,0xaf2,0x1762,0xafa,0x1763,0x175a,0x176b,0x1771,0x1779,0xb02,0x18a1,0x18a1,0x77c,";
"    0x508,0x508,0x508,0x508,0x11c4,0x1891,0x1891,0xbf9,0xcea,0x508,0x508,0x508,0x508,0x17aa,0x17b1,0xb0a,";
"    0x17b4,0xb12,0xb1a,0xb22,0x17ae,0xb2a,0xb32,0xb3a,0x17b3,0x17bb,0x17aa,0x17b1,0x17ad,0x17b4,0x17bc,0x17ab,";
"    0x17b2,0x17ae,0xb41,0x1781,0x1789,0x1790,0x1797,0x1784,0x178c,0x1793,0x179a,0xb49,0x17a2,0x1d62,0x1d62,0x1d62,";
"    0x1d62,0x1d62,0x1d62,0x1d62,0x1d62,0x1d62,0x1d62,0x1d62,0x1d62,0x1d62,0x1d62,0x1d62,0x1d62,0x1d52,0x1d55,0x1d52,";
"    0x1d5c,0x10ca,0x784,0x508,0x508,0x508,0x508,0x508,0x508,0x508,0x508,0x508,0x508,0x508,0x508,0x508,";
"    0x508,0x508,0x508,0x508,0x508,0x508,0x508,0x508,0x508,0x508,0x508,0x508,0x508,0x508,0x508,0x508,";
"    0x508,0x508,0x508,0x508,0x508,0x508,0x508,0x508,0x508,0x508,0x508,0x508,0x508,0x10fe,0x78c,0x508,";
"    0x508,0x508,0x508,0x508,0x508,0x1e46,0x11ff,0x794,0x508,0x508,0x508,0x508,0x508,0x508,0x508,0x508,";
"    0x508,0x508,0x508,0x1e56,0x1240,0x508,0x508,0x508,0x508,0x508,0x508,0x508,0x508,0x508,0x508,0x508,";
"    0x508,0x508,0x508,0x508,0x508,0x508,0x508,0x508,0x508,0x508,0x508,0x508,0x508,0x508,0x508,0x508,";
"    0x508,0x508,0x508,0x508,0x508,0x508,0x508,0x508,0x508,0x508,0x508,0x508,0x508,0x1c9d,0x1c9d,0x1c9d,";
"    0x1c9d,0x1c9d,0x1c9d,0xfd8,0x508,0x1d9a,0x1d92,0x10d2,0x508,0x508,0x508,0x508,0x508,0x508,0x508,0x508,";
"    0x508,0x508,0x508,0x508,0x508,0x508,0x508,0x508,0x508,0x508,0x508,0x508,0x508,0x508,0x508,0x508,";
"    0x798,0x1e16,0x11b4,0x508,0x508,0x1207,0x1208,0x7a0,0x508,0x508,0x508,0x508,0x508,0xeac,0xeb4,0xebc,";
"    0xec4,0xecc,0xed4,0xedb,0xedf,0x508,0x508,0x508,0x508,0x508,0x508,0x508,0x508,0x508,0x508,0x508,";
"    0x508,0x508,0x508,0x508,0x508,0x508,0x508,0x508,0x508,0x508,0x508,0x508,0x508,0x508,0x508,0x508,";
"    0x508,0x508,0x508,0x508,0x508,0x508,0x508,0x508,0x508,0x508,0x508,0x508,0x508,0x508,0x508,0x508,";
"    0x508,0x508,0x508,0x508,0x508,0x508,0x508,0x508,0x508,0x508,0x508,0x508,0x508,0x508,0x508,0x508,";
"    0x508,0x508,0x508,0x508,0x7a4,0x1048,0x1ced,0x104e,0x1ced,0x1056,0x105b,0x1060,0x1060,0x1d72,0x1d82,0x1d8a,";
"    0x10ba,0x1d7a,0x1e36,0x10c2,0x1dee,0x1e3e,0x1e3e,0x117e,0x1186,0x121f,0x1225,0x122a,0x1230,0x1e5e,0x1e5e,0x1e5e,";
"    0x1e5e,0x1274,0x1e5e,0x127a,0x127e,0x7ac,0x7ac,0x7ac,0x7ac,0x7ac,0x7ac,0x7ac,0x7ac,0x7ac,0x7ac,0x7ac,";
"    0x7ac,0x7ac,0x7ac,0x7ac,0x7ac,0x7ac,0x7ac,0x7ac,0x7ac,0x7ac,0x7ac,0x7ac,0x7ac,0x7ac,0x7ac,0x7ac,";
"    0x7ac,0x7ac,0x7ac,0x7ac,0x7ad,0xb51,0x17c4,0x17c4,0x17c4,0x7b5,0x7b5,0x7b5,0x7b5,0x1899,0x1899,0x1899,";
"    0x1899,0x1899,0x1899,0x1899,0x7bd,0x7b5,0x7b5,0x7b5,0x7b5,0x7b5,0x7b5,0x7b5,0x7b5,0x7b5,0x7b5,0x7b5,";
"    0x7b5,0x7b5,0x7b5,0x7b5,0x7b5,0x7b5,0x7b5,0x7b5,0x7b5,0x7b5,0x7b5,0x7b5,0x7b5,0x7b5,0x7b5,0x7b5,";
"    0x7b5,0x7b5,0x7b5,0x7b5,0x7b5,0x7b5,0x7b5,0x7b5,0x7b5,0x7b5,0x7b5,0x7b5,0x7b5,0x7b5,0x7b5,0x7b5,";
"    0x7b5,0x7b5,0x7b5,0x7b5,0x7b5,0x7b5,0x7b5,0x7b5,0x7b5,0x7b5,0x7b5,0x7b5,0x7b5,0x7b5,0x7b5,0x7b5,";
"    0x7b5,0x7b5,0x7b5,0x7b5,0x7b5,0x1a20,0xd52,0x1a28,0x1a28,0xd56,0xe6c,0xe74,0xe7c,0x1ae9,0x1ad1,0x1af1,";
"    0x1af9,0x1ae1,0xe01,0xe05,0xe0c,0xe14,0xe1b,0xe23,0xe2b,0xe2d,0xe2d,0xe2d,0xe2d,0x1b5a,0x1b62,0x1b5a,";
"    0x1b68,0x1b70,0x1b3b,0x1b78,0x1b80,0x1b5a,0x1b88,0x1b90,0x1b97,0x1b9f,0x1b43,0x1b5a,0x1ba4,0x1b4b,0x1b52,0x1bac,";
"    0x1bb2,0x1c4e,0x1c55,0x1c46,0x1bba,0x1bc2,0x1bca,0x1bd2,0x1cbd,0x1bda,0x1be2,0xe84,0xe8c,0x1b2b,0x1b2b,0x1b2b,";
"    0xe94,0x1c75,0x1c75,0xf65,0xf6d,0x1abc,0x1abc,0x1abc,0x1abc,0x1abc,0x1abc,0x1abc,0x1abc,0x1abc,0x1abc,0x1abc,";
"    0x1abc,0x1abc,0x1abc,0x1abc,0x1abc,0x1abc,0x1abc,0x1abe,0x1abc,0x1ac6,0x1abc,0x1abc,0x1abc,0x1abc,0x1abc,0x1abc,";
"    0x1ac9,0x1abc,0x1abc,0x1abc,0x1abc,0x1abc,0xdf9,0x508,0x508,0x508,0x508,0x508,0x508,0x508,0x508,0x508,";
"    0x508,0x508,0x508,0x508,0x508,0x508,0x508,0x508,0x508,0x508,0x508,0x508,0x508,0x508,0x508,0x508,";
"    0x508,0x508,0x508,0x508,0x508,0x508,0x508,0x1d25,0x1d25,0x1d25,0x1d25,0x1d25,0x1d25,0x1d25,0x1d25,0x1d25,";
"    0x1d25,0x1d25,0x1d25,0x1d25,0x1d25,0x1d2a,0x1d25,0x1d25,0x1d25,0x1088,0x108a,0x508,0x508,0x508,0x508,0x508,";
"    0x508,0x508,0x508,0x508,0x508,0x508,0x508,0x1db2,0x1db2,0x1db2,0x1db2,0x1db2,0x1db2,0x1db2,0x1db2,0x1db2,";
"    0x1db2,0x1db2,0x1db2,0x1db2,0x1db2,0x1db2,0x1db2,0x1db2,0x1db2,0x1db2,0x1db2,0x1db2,0x1db2,0x1db2,0x1db2,0x1db2,";
"    0x1db2,0x1db2,0x1db2,0x1db2,0x1db2,0x1db2,0x1db2,0x1db2,0x1db2,0x1db2,0x1db2,0x1db2,0x1db2,0x1db2,0x1db2,0x1db2,";
"    0x1db2,0x1db2,0x1db2,0x1db2,0x1db2,0x1db2,0x1db2,0x1db2,0x1db2,0x1db2,0x1db2,0x1db2,0x1db2,0x1db2,0x1db2,0x1db2,";
"    0x1db2,0x1db2,0x1db2,0x1db2,0x1db2,0x1db2,0x1142,0x1b33,0x1de6,0x1de6,0x1de6,0x1de6,0x1de6,0x1de6,0x1de6,0x114a,";
"    0x1152,0x1210,0x1217,0x1dfe,0x1dfe,0x1dfe,0x1dfe,0x1dfe,0x1dfe,0x1dfe,0x1dfe,0x1dfe,0x1dfe,0x1dfe,0x116e,0x508,";
"    0x508,0x508,0x508,0x508,0x508,0x508,0x508,0x508,0x508,0x508,0x508,0x508,0x508,0x508,0x508,0x508,";
"    0x508,0x508,0x508,0x508,0x508,0x508,0x508,0x508,0x508,0x508,0x508,0x508,0x508,0x508,0x508,0x508,";
"    0x508,0x508,0x508,0x508,0x508,0x508,0x508,0x17cc,0x17cc,0x17cc,0x17cc,0x17cc,0x17cc,0x17cc,0x17cc,0x17cc,";
"    0x17cc,0x17cc,0x17cc,0x17cc,0x17cc,0x17cc,0x17cc,0x17cc,0x17cc,0x17cc,0x17cc,0x17cc,0x17cc,0x17cc,0x17cc,0x17cc,";
"    0x17cc,0x17cc,0x17cc,0x17cc,0x17cc,0x17cc,0x17cc,0x17cc,0x17cc,0x17cc,0x17cc,0x17cc,0x17cc,0x17cc,0x17cc,0x17cc,";
"    0x17cc,0x17cc,0x17cc,0x17cc,0x17cc,0x17cc,0x17cc,0x17cc,0x17cc,0x17cc,0x17cc,0x17cc,0x17cc,0x12d0,0x1299,0x1b01,";
"    0x1b01,0x1b01,0x1b01,0x1b01,0x1b01,0x1b01,0x1b01,0x1df6,0x1df6,0x1df6,0x1df6,0x1df6,0x1df6,0x1df6,0x1df6,0x1df6,";
"    0x1df6,0x1df6,0x1df6,0x1df6,0x1df6,0x1df6,0x1df6,0x1df6,0x1df6,0x1df6,0x1df6,0x1df6,0x1df6,0x1df6,0x1df6,0x1df6,";
"    0x1df6,0x1df6,0x1df6,0x1df6,0x1df6,0x1df6,0x12a1,0x1299,0x1299,0x1299,0x1299,0x1299,0x1299,0x1299,0x1299,0x1299,";
"    0x1299,0x1299,0x1299,0x1299,0x1299,0x1299,0x1299,0x1299,0x1299,0x1299,0x1299,0x1299,0x1299,0x1299,0x1299,0x1299,";
"    0x1299,0x1299,0x1299,0x1299,0x1299,0x1299,0x1299,0x1299,0x1299,0x1299,0x1299,0x1299,0x1299,0x1299,0x1299,0x1299,";
"    0x1299,0x1299,0x1299,0x1299,0x1299,0x1299,0x1299,0x1299,0x1299,0x1299,0x1299,0x1299,0x1299,0x1299,0x1299,0x1299,";
"    0x1299,0x1299,0x1299,0x1299,0x1299,0x1299,0x1299,0x17d4,0x17d4,0x17d4,0x17d4,0x17d4,0x17d4,0x17d4,0x17d4,0x17d4,";
"    0x17d4,0x17d4,0x17d4,0x17d4,0x17d4,0x17d4,0x17d4,0x12d8,0x1299,0x1299,0x1299,0x1299,0x1299,0x1299,0x1299,0x1299,";
"    0x1299,0x1299,0x1299,0x1299,0x1299,0x1299,0x1299,0x1299,0x1299,0x1299,0x1299,0x1299,0x1299,0x1299,0x1299,0x1299,";
"    0x1299,0x1299,0x1299,0x1299,0x1299,0x1299,0x1299,0x1299,0x1299,0x1299,0x1299,0x1299,0x1299,0x1299,0x1299,0x1299,";
"    0x1299,0x1299,0x1299,0x1299,0x1299,0x1299,0x12a5,0x1e6e,0x1e6e,0x1e6e,0x1e6e,0x1e6e,0x1e6e,0x1e6e,0x1e6e,0x1e6e,";
"    0x1e6e,0x1e6e,0x1e6e,0x1e6e,0x1e6e,0x1e6e,0x1e6e,0x1e6e,0x1e6e,0x1e6e,0x1e6e,0x1e6e,0x1e6e,0x1e6e,0x1e6e,0x1e6e,";
"    0x1e6e,0x12ad,0x1299,0x1299,0x1299,0x1299,0x1299,0x1299,0x1299,0x1299,0x1299,0x1299,0x1299,0x1299,0x1299,0x1299,";
"    0x1299,0x1299,0x1299,0x1299,0x1299,0x1299,0x1299,0x1299,0x1299,0x1299,0x1299,0x1299,0x1299,0x1299,0x1299,0x1299,";
"    0x1299,0x1299,0x1299,0x1299,0x1299,0x1299,0x1299,0x1299,0x1299,0x1299,0x1299,0x1299,0x1299,0x1299,0x1299,0x1299,";
"    0x1299,0x1299,0x1299,0x1299,0x1299,0x1299,0x1299,0x1299,0x1299,0x1299,0x1299,0x1299,0x1299,0x1299,0x1299,0x1299,";
"    0x1299,0x12a5,0x1b01,0x1b01,0x1b01,0x1b01,0x1b01,0x1b01,0x1b01,0x1b01,0x1b01,0x1b01,0x1b01,0x1b01,0x1b01,0x1b01,";
"    0x1b01,0x1b01,0x1b01,0x1b01,0x1b01,0x1b01,0x1b01,0x1b01,0x1b01,0x1b01,0x1b01,0x1b01,0x1b01,0x1b01,0x1b01,0x1b01,";
"    0x1b01,0x1b01,0x1b01,0x1b01,0x1b01,0x1b01,0x1b01,0x1b01,0x1b01,0x1b01,0x1b01,0x1b01,0x1b01,0x1b01,0x1b01,0x1b01,";
"    0x1b01,0x1b01,0x1b01,0x1b01,0x1b01,0x1b01,0x1b01,0x1b01,0x1b01,0x1b01,0x1b01,0x12e0,0x1bea,0x1bea,0x1bea,0x1bea,";
"    0x1bea,0x1bea,0x12e8,0x1d6a,0x1d6a,0x1d6a,0x1d6a,0x1d6a,0x1d6a,0x1d6a,0x1d6a,0x1d6a,0x1d6a,0x1d6a,0x1d6a,0x1d6a,";
"    0x1d6a,0x1d6a,0x1d6a,0x1d6a,0x1d6a,0x1d6a,0x1d6a,0x1d6a,0x1d6a,0x1d6a,0x1d6a,0x1d6a,0x1d6a,0x1d6a,0x1d6a,0x1d6a,";
"    0x1d6a,0x1d6a,0x1d6a,0x1d6a,0x1d6a,0x1d6a,0x1d6a,0x1d6a,0x1d6a,0x1d6a,0x1d6a,0x1d6a,0x1d6a,0x1d6a,0x1d6a,0x1d6a,";
"    0x1d6a,0x1d6a,0x1d6a,0x1d6a,0x1d6a,0x1d6a,0x1d6a,0x1d6a,0x1d6a,0x1d6a,0x1d6a,0x1d6a,0x1d6a,0x1d6a,0x1d6a,0x1d6a,";
"    0x1d6a,0x1d6a,0x12f0,0x1df6,0x1df6,0x1df6,0x1df6,0x1df6,0x1df6,0x1df6,0x1df6,0x1df6,0x1df6,0x1664,0x1664,0x1664,";
"    0x1664,0x1664,0x1664,0x1664,0x1664,0x1664,0x1664,0x1664,0x1664,0x1664,0x1664,0x1664,0x1664,0x1664,0x1664,0x1664,";
"    0x1664,0x1664,0x1664,0x1664,0x1664,0x1664,0x1664,0x1664,0x1664,0x1664,0x1664,0x1664,0x1664,0x1664,0x1664,0x1664,";
"    0x1664,0x1664,0x1664,0x1664,0x1664,0x1664,0x1664,0x1664,0x1664,0x1664,0x1664,0x1664,0x1664,0x1664,0x1664,0x1664,";
"    0x1664,0x1664,0x1664,0x1664,0x1664,0x1664,0x1664,0x1664,0x1664,0x1664,0x1664,0x1664,0x1654,0x166c,0x166c,0x166c,";
"    0x166c,0x166c,0x166c,0x166c,0x166c,0x166c,0x166c,0x166c,0x166c,0x166c,0x166c,0x166c,0x166c,0x166c,0x166c,0x166c,";
"    0x166c,0x166c,0x166c,0x166c,0x166c,0x166c,0x166c,0x166c,0x166c,0x166c,0x166c,0x166c,0x166c,0x166c,0x166c,0x166c,";
"    0x166c,0x166c,0x166c,0x166c,0x166c,0x166c,0x166c,0x166c,0x166c,0x166c,0x166c,0x166c,0x166c,0x166c,0x166c,0x166c,";
"    0x166c,0x166c,0x166c,0x166c,0x166c,0x166c,0x166c,0x166c,0x166c,0x166c,0x166c,0x166c,0x165c,0x1664,0x1664,0x1664,";
"    0x1664,0x1664,0x1664,0x1664,0x1664,0x1664,0x1664,0x1664,0x1664,0x1664,0x1664,0x1664,0x1664,0x1664,0x1664,0x1664,";
"    0x1664,0x1664,0x1664,0x1664,0x1664,0x1664,0x1664,0x1664,0x1664,0x1664,0x1664,0x1664,0x1664,0x1664,0x1664,0x1664,";
"    0x1664,0x1664,0x1664,0x1664,0x1664,0x1664,0x1664,0x1664,0x1664,0x1664,0x1664,0x1664,0x1664,0x1664,0x1664,0x1664,";
"    0x1664,0x1664,0x1664,0x1664,0x1664,0x1664,0x1664,0x1664,0x1664,0x1664,0x1664,0x1664,0x1664,0x166c,0x166c,0x166c,";
"    0x166c,0x166c,0x166c,0x166c,0x166c,0x166c,0x166c,0x166c,0x166c,0x166c,0x166c,0x166c,0x166c,0x166c,0x166c,0x166c,";
"    0x166c,0x166c,0x166c,0x166c,0x166c,0x166c,0x166c,0x166c,0x166c,0x166c,0x166c,0x166c,0x166c,0x166c,0x166c,0x166c,";
"    0x166c,0x166c,0x166c,0x166c,0x166c,0x166c,0x166c,0x166c,0x166c,0x166c,0x166c,0x166c,0x166c,0x166c,0x166c,0x166c,";
"    0x166c,0x166c,0x166c,0x166c,0x166c,0x166c,0x166c,0x166c,0x166c,0x166c,0x166c,0x166c,0x166c,0x17cc,0x17cc,0x17cc,";
"    0x17cc,0x17cc,0x17cc,0x17cc,0x17cc,0x17cc,0x17cc,0x17cc,0x17cc,0x17cc,0x17cc,0x17cc,0x17cc,0x17cc,0x17cc,0x17cc,";
"    0x17cc,0x17cc,0x17cc,0x17cc,0x17cc,0x17cc,0x17cc,0x17cc,0x17cc,0x17cc,0x17cc,0x17cc,0x17cc,0x17cc,0x17cc,0x17cc,";
"    0x17cc,0x17cc,0x17cc,0x17cc,0x17cc,0x17cc,0x17cc,0x17cc,0x17cc,0x17cc,0x17cc,0x17cc,0x17cc,0x17cc,0x17cc,0x17cc,";
"    0x17cc,0x17cc,0x17cc,0x17cc,0x17cc,0x17cc,0x17cc,0x17cc,0x17cc,0x17cc,0x17cc,0x17cc,0x17cc,0x1b01,0x1b01,0x1b01,";
"    0x1b01,0x1b01,0x1b01,0x1b01,0x1b01,0x1b01,0x1b01,0x1b01,0x1b01,0x1b01,0x1b01,0x1b01,0x1b01,0x1b01,0x1b01,0x1b01,";
"    0x1b01,0x1b01,0x1b01,0x1b01,0x1b01,0x1b01,0x1b01,0x1b01,0x1b01,0x1b01,0x1b01,0x1b01,0x1b01,0x1b01,0x1b01,0x1b01,";
"    0x1b01,0x1b01,0x1b01,0x1b01,0x1b01,0x1b01,0x1b01,0x1b01,0x1b01,0x1b01,0x1b01,0x1b01,0x1b01,0x1b01,0x1b01,0x1b01,";
"    0x1b01,0x1b01,0x1b01,0x1b01,0x1b01,0x1b01,0x1b01,0x1b01,0x1b01,0x1b01,0x1b01,0x1b01,0x1b01,0x1d6a,0x1d6a,0x1d6a,";
"    0x1d6a,0x1d6a,0x1d6a,0x1d6a,0x1d6a,0x1d6a,0x1d6a,0x1d6a,0x1d6a,0x1d6a,0x1d6a,0x1d6a,0x1d6a,0x1d6a,0x1d6a,0x1d6a,";
"    0x1d6a,0x1d6a,0x1d6a,0x1d6a,0x1d6a,0x1d6a,0x1d6a,0x1d6a,0x1d6a,0x1d6a,0x1d6a,0x1d6a,0x1d6a,0x1d6a,0x1d6a,0x1d6a,";
"    0x1d6a,0x1d6a,0x1d6a,0x1d6a,0x1d6a,0x1d6a,0x1d6a,0x1d6a,0x1d6a,0x1d6a,0x1d6a,0x1d6a,0x1d6a,0x1d6a,0x1d6a,0x1d6a,";
"    0x1d6a,0x1d6a,0x1d6a,0x1d6a,0x1d6a,0x1d6a,0x1d6a,0x1d6a,0x1d6a,0x1d6a,0x1d6a,0x1d6a,0x1d6a,0x1db2,0x1db2,0x1db2,";
"    0x1db2,0x1db2,0x1db2,0x1db2,0x1db2,0x1db2,0x1db2,0x1db2,0x1db2,0x1db2,0x1db2,0x1db2,0x1db2,0x1db2,0x1db2,0x1db2,";
"    0x1db2,0x1db2,0x1db2,0x1db2,0x1db2,0x1db2,0x1db2,0x1db2,0x1db2,0x1db2,0x1db2,0x1db2,0x1db2,0x1db2,0x1db2,0x1db2,";
"    0x1db2,0x1db2,0x1db2,0x1db2,0x1db2,0x1db2,0x1db2,0x1db2,0x1db2,0x1db2,0x1db2,0x1db2,0x1db2,0x1db2,0x1db2,0x1db2,";
"    0x1db2,0x1db2,0x1db2,0x1db2,0x1db2,0x1db2,0x1db2,0x1db2,0x1db2,0x1db2,0x1db2,0x1db2,0x1db2,0x1df6,0x1df6,0x1df6,";
"    0x1df6,0x1df6,0x1df6,0x1df6,0x1df6,0x1df6,0x1df6,0x1df6,0x1df6,0x1df6,0x1df6,0x1df6,0x1df6,0x1df6,0x1df6,0x1df6,";
"    0x1df6,0x1df6,0x1df6,0x1df6,0x1df6,0x1df6,0x1df6,0x1df6,0x1df6,0x1df6,0x1df6,0x1df6,0x1df6,0x1df6,0x1df6,0x1df6,";
"    0x1df6,0x1df6,0x1df6,0x1df6,0x1df6,0x1df6,0x1df6,0x1df6,0x1df6,0x1df6,0x1df6,0x1df6,0x1df6,0x1df6,0x1df6,0x1df6,";
"    0x1df6,0x1df6,0x1df6,0x1df6,0x1df6,0x1df6,0x1df6,0x1df6,0x1df6,0x1df6,0x1df6,0x1df6,0x1df6,0x1e6e,0x1e6e,0x1e6e,";
"    0x1e6e,0x1e6e,0x1e6e,0x1e6e,0x1e6e,0x1e6e,0x1e6e,0x1e6e,0x1e6e,0x1e6e,0x1e6e,0x1e6e,0x1e6e,0x1e6e,0x1e6e,0x1e6e,";
"    0x1e6e,0x1e6e,0x1e6e,0x1e6e,0x1e6e,0x1e6e,0x1e6e,0x1e6e,0x1e6e,0x1e6e,0x1e6e,0x1e6e,0x1e6e,0x1e6e,0x1e6e,0x1e6e,";
"    0x1e6e,0x1e6e,0x1e6e,0x1e6e,0x1e6e,0x1e6e,0x1e6e,0x1e6e,0x1e6e,0x1e6e,0x1e6e,0x1e6e,0x1e6e,0x1e6e,0x1e6e,0x1e6e,";
"    0x1e6e,0x1e6e,0x1e6e,0x1e6e,0x1e6e,0x1e6e,0x1e6e,0x1e6e,0x1e6e,0x1e6e,0x1e6e,0x1e6e,0x1e6e,0x4e7,0x4e7,0x4e7,";
"    0x2c7,0x2c7,0x2c7,0x2c7,0x2c7,0x2c7,0x2c7,0x2c7,0x2c7,0x2ca,0x2d3,0x2cd,0x2cd,0x2d0,0x2c7,0x2c7,";
"    0x2c7,0x2c7,0x2c7,0x2c7,0x2c7,0x2c7,0x2c7,0x2c7,0x2c7,0x2c7,0x2c7,0x2c7,0x2c7,0x2c7,0x2c7,0x2c7,";
"    0x7fb,0x7f5,0x7da,0x7d1,0x7c8,0x7c5,0x7bc,0x7d7,0x7c2,0x7ce,0x7d1,0x7ec,0x7e3,0x7d4,0x7f8,0x7cb,";
"    0x7b9,0x7b9,0x7b9,0x7b9,0x7b9,0x7b9,0x7b9,0x7b9,0x7b9,0x7b9,0x7e0,0x7dd,0x7e6,0x7e6,0x7e6,0x7f5,";
"    0x7bc,0x807,0x807,0x807,0x807,0x807,0x807,0x801,0x801,0x801,0x801,0x801,0x801,0x801,0x801,0x801,";
"    0x801,0x801,0x801,0x801,0x801,0x801,0x801,0x801,0x801,0x801,0x801,0x7c2,0x7c8,0x7ce,0x7f2,0x7b6,";
"    0x7ef,0x804,0x804,0x804,0x804,0x804,0x804,0x7fe,0x7fe,0x7fe,0x7fe,0x7fe,0x7fe,0x7fe,0x7fe,0x7fe,";
"    0x7fe,0x7fe,0x7fe,0x7fe,0x7fe,0x7fe,0x7fe,0x7fe,0x7fe,0x7fe,0x7fe,0x7c2,0x7e9,0x7bf,0x7e6,0x2c7,";
"    0,0,0,0,0,0,0,0,0,0,0,0,0,0,0,0,";
"    0,0,0,0,0,0,0,0,0,0,0,0,0,0,0,0,";
"    0,0,0,0,0,0,0,0,0,0,0,0,0,0,0,0,";
"    0,0,0,0,0,0,0,0,0,0,0,0,0,0,0,0,";
"    0x2d6,0x2d6,0x2d6,0x2d6,0x2d6,0x2e5,0x2d6,0x2d6,0x2d6,0x2d6,0x2d6,0x2d6,0x2d6,0x2d6,0x2d6,0x2d6,";
"    0x2d6,0x2d6,0x2d6,0x2d6,0x2d6,0x2d6,0x2d6,0x2d6,0x2d6,0x2d6,0x2d6,0x2d6,0x2d6,0x2d6,0x2d6,0x2d6,";
"    0x2d9,0x651,0x810,0x813,0x657,0x813,0x80d,0x64e,0x645,0x2df,0x663,0x2e2,0x816,0x63c,0x65a,0x80a,";
"    0x654,0x660,0x642,0x642,0x648,0x2dc,0x64e,0x64b,0x645,0x642,0x663,0x2e2,0x63f,0x63f,0x63f,0x651,";
"    0x2eb,0x2eb,0x2eb,0x2eb,0x2eb,0x2eb,0x66c,0x2eb,0x2eb,0x2eb,0x2eb,0x2eb,0x2eb,0x2eb,0x2eb,0x2eb,";
"    0x66c,0x2eb,0x2eb,0x2eb,0x2eb,0x2eb,0x2eb,0x65d,0x66c,0x2eb,0x2eb,0x2eb,0x2eb,0x2eb,0x66c,0x666,";
"    0x669,0x669,0x2e8,0x2e8,0x2e8,0x2e8,0x666,0x2e8,0x669,0x669,0x669,0x2e8,0x669,0x669,0x2e8,0x2e8,";
"    0x666,0x2e8,0x669,0x669,0x2e8,0x2e8,0x2e8,0x65d,0x666,0x669,0x669,0x2e8,0x669,0x2e8,0x666,0x2e8,";
"    0x2f7,0x672,0x2f7,0x2ee,0x2f7,0x2ee,0x2f7,0x2ee,0x2f7,0x2ee,0x2f7,0x2ee,0x2f7,0x2ee,0x2f7,0x2ee,";
"    0x2f4,0x66f,0x2f7,0x672,0x2f7,0x2ee,0x2f7,0x2ee,0x2f7,0x2ee,0x2f7,0x672,0x2f7,0x2ee,0x2f7,0x2ee,";
"    0x2f7,0x2ee,0x2f7,0x2ee,0x2f7,0x2ee,0x678,0x66f,0x2f7,0x2ee,0x2f7,0x672,0x2f7,0x2ee,0x2f7,0x2ee,";
"    0x2f7,0x66f,0x67b,0x675,0x2f7,0x2ee,0x2f7,0x2ee,0x66f,0x2f7,0x2ee,0x2f7,0x2ee,0x2f7,0x2ee,0x67b,";
"    0x675,0x678,0x66f,0x2f7,0x672,0x2f7,0x2ee,0x2f7,0x672,0x67e,0x678,0x66f,0x2f7,0x672,0x2f7,0x2ee,";
"    0x2f7,0x2ee,0x678,0x66f,0x2f7,0x2ee,0x2f7,0x2ee,0x2f7,0x2ee,0x2f7,0x2ee,0x2f7,0x2ee,0x2f7,0x2ee,";
"    0x2f7,0x2ee,0x2f7,0x2ee,0x2f7,0x2ee,0x678,0x66f,0x2f7,0x2ee,0x2f7,0x672,0x2f7,0x2ee,0x2f7,0x2ee,";
"    0x2f7,0x2ee,0x2f7,0x2ee,0x2f7,0x2ee,0x2f7,0x2ee,0x2f7,0x2f7,0x2ee,0x2f7,0x2ee,0x2f7,0x2ee,0x2f1,";
"    0x2fa,0x306,0x306,0x2fa,0x306,0x2fa,0x306,0x306,0x2fa,0x306,0x306,0x306,0x2fa,0x2fa,0x306,0x306,";
"    0x306,0x306,0x2fa,0x306,0x306,0x2fa,0x306,0x306,0x306,0x2fa,0x2fa,0x2fa,0x306,0x306,0x2fa,0x306,";
"    0x309,0x2fd,0x306,0x2fa,0x306,0x2fa,0x306,0x306,0x2fa,0x306,0x2fa,0x2fa,0x306,0x2fa,0x306,0x309,";
"    0x2fd,0x306,0x306,0x306,0x2fa,0x306,0x2fa,0x306,0x306,0x2fa,0x2fa,0x303,0x306,0x2fa,0x2fa,0x2fa,";
"    0x303,0x303,0x303,0x303,0x30c,0x30c,0x300,0x30c,0x30c,0x300,0x30c,0x30c,0x300,0x309,0x681,0x309,";
"    0x681,0x309,0x681,0x309,0x681,0x309,0x681,0x309,0x681,0x309,0x681,0x309,0x681,0x2fa,0x309,0x2fd,";
"    0x309,0x2fd,0x309,0x2fd,0x306,0x2fa,0x309,0x2fd,0x309,0x2fd,0x309,0x2fd,0x309,0x2fd,0x309,0x2fd,";
"    0x2fd,0x30c,0x30c,0x300,0x309,0x2fd,0x9ea,0x9ea,0x9ed,0x9e7,0x309,0x2fd,0x309,0x2fd,0x309,0x2fd,";
"    0x309,0x2fd,0x309,0x2fd,0x309,0x2fd,0x309,0x2fd,0x309,0x2fd,0x309,0x2fd,0x309,0x2fd,0x309,0x2fd,";
"    0x309,0x2fd,0x309,0x2fd,0x9ed,0x9e7,0x9ed,0x9e7,0x9ea,0x9e4,0x9ed,0x9e7,0xbaf,0xcb7,0x9ea,0x9e4,";
"    0x9ea,0x9e4,0x9ed,0x9e7,0x9ed,0x9e7,0x9ed,0x9e7,0x9ed,0x9e7,0x9ed,0x9e7,0x9ed,0x9e7,0x9ed,0x9e7,";
"    0xcb7,0xcb7,0xcb7,0xdb6,0xdb6,0xdb6,0xdb9,0xdb9,0xdb6,0xdb9,0xdb9,0xdb6,0xdb6,0xdb9,0xefa,0xefd,";
"    0xefd,0xefd,0xefd,0xefa,0xefd,0xefa,0xefd,0xefa,0xefd,0xefa,0xefd,0xefa,0x30f,0x684,0x30f,0x30f,";
"    0x30f,0x30f,0x30f,0x30f,0x30f,0x30f,0x30f,0x30f,0x30f,0x30f,0x30f,0x30f,0x30f,0x684,0x30f,0x30f,";
"    0x30f,0x30f,0x30f,0x30f,0x30f,0x30f,0x30f,0x30f,0x30f,0x30f,0x30f,0x30f,0x30f,0x30f,0x30f,0x30f,";
"    0x30f,0x30f,0x30f,0x30f,0x30f,0x30f,0x30f,0x30f,0x30f,0x30f,0x30f,0x30f,0x312,0x30f,0x30f,0x30f,";
"    0x30f,0x30f,0x30f,0x30f,0x30f,0x30f,0x30f,0x30f,0x30f,0x30f,0x30f,0x30f,0x30f,0x30f,0x30f,0x30f,";
"    0x30f,0x9f0,0x9f0,0x9f0,0x9f0,0x9f0,0xcba,0xcba,0x327,0x327,0x327,0x327,0x327,0x327,0x327,0x327,";
"    0x327,0x31e,0x31e,0x31e,0x31e,0x31e,0x31e,0x31e,0x31b,0x31b,0x318,0x318,0x68a,0x318,0x31e,0x68d,";
"    0x321,0x68d,0x68d,0x68d,0x321,0x68d,0x31e,0x31e,0x690,0x324,0x318,0x318,0x318,0x318,0x318,0x318,";
"    0x687,0x687,0x687,0x687,0x315,0x687,0x318,0xb25,0x327,0x327,0x327,0x327,0x327,0x318,0x318,0x318,";
"    0x318,0x318,0x9f9,0x9f9,0x9f6,0x9f3,0x9f6,0xcbd,0xcbd,0xcbd,0xcbd,0xcbd,0xcbd,0xcbd,0xcbd,0xcbd,";
"    0xcbd,0xcbd,0xcbd,0xcbd,0xcbd,0xcbd,0xcbd,0xcbd,0x693,0x693,0x693,0x693,0x693,0x693,0x693,0x693,";
"    0x693,0x693,0x693,0x693,0x693,0x693,0x693,0x693,0x693,0x693,0x693,0x693,0x693,0x693,0x693,0x693,";
"    0x693,0x693,0x693,0x693,0x693,0x693,0x693,0x693,0x693,0x693,0x693,0x693,0x693,0x693,0x693,0x693,";
"    0x693,0x693,0x693,0x693,0x693,0x693,0x693,0x693,0x693,0x693,0x693,0x693,0x693,0x693,0x693,0x693,";
"    0x693,0x693,0x693,0x693,0x693,0x693,0x693,0x693,0x696,0x696,0x94b,0x696,0x696,0x94e,0xb28,0xb28,";
"    0xb28,0xb28,0xb28,0xb28,0xb28,0xb28,0xb28,0xc6c,0xd83,0xd83,0xd83,0xd83,0xd83,0xd83,0xd83,0xd83,";
"    0xebe,0xebe,0xebe,0xebe,0xec1,0xd86,0xd86,0xd86,0x699,0x699,0xb2b,0xcb4,0xcb4,0xcb4,0xcb4,0xcb4,";
"    0xcb4,0xcb4,0xcb4,0xcb4,0xcb4,0xcb4,0xcb4,0xcb4,0xfa8,0xfa5,0xfa8,0xfa5,0x333,0x33c,0xfa8,0xfa5,";
"    9,9,0x342,0xf00,0xf00,0xf00,0x32a,0x14fd,9,9,9,9,0x33f,0x32d,0x351,0x330,";
"    0x351,0x351,0x351,9,0x351,9,0x351,0x351,0x348,0x69f,0x69f,0x69f,0x69f,0x69f,0x69f,0x69f,";
"    0x69f,0x69f,0x69f,0x69f,0x69f,0x69f,0x69f,0x69f,0x69f,0x69f,9,0x69f,0x69f,0x69f,0x69f,0x69f,";
"    0x69f,0x69f,0x351,0x351,0x348,0x348,0x348,0x348,0x348,0x69c,0x69c,0x69c,0x69c,0x69c,0x69c,0x69c,";
"    0x69c,0x69c,0x69c,0x69c,0x69c,0x69c,0x69c,0x69c,0x69c,0x69c,0x345,0x69c,0x69c,0x69c,0x69c,0x69c,";
"    0x69c,0x69c,0x348,0x348,0x348,0x348,0x348,0xfa8,0x354,0x354,0x357,0x351,0x351,0x354,0x34b,0x9fc,";
"    0xbb8,0xbb5,0x34e,0x9fc,0x34e,0x9fc,0x34e,0x9fc,0x34e,0x9fc,0x339,0x336,0x339,0x336,0x339,0x336,";
"    0x339,0x336,0x339,0x336,0x339,0x336,0x339,0x336,0x354,0x354,0x34b,0x345,0xb67,0xb64,0xbb2,0xcc3,";
"    0xcc0,0xcc6,0xcc3,0xcc0,0xdbc,0xdbf,0xdbf,0xdbf,0xa0b,0x6ab,0x363,0x366,0x363,0x363,0x363,0x366,";
"    0x363,0x363,0x363,0x363,0x366,0xa0b,0x366,0x363,0x6a8,0x6a8,0x6a8,0x6a8,0x6a8,0x6a8,0x6a8,0x6a8,";
"    0x6a8,0x6ab,0x6a8,0x6a8,0x6a8,0x6a8,0x6a8,0x6a8,0x6a8,0x6a8,0x6a8,0x6a8,0x6a8,0x6a8,0x6a8,0x6a8,";
"    0x6a8,0x6a8,0x6a8,0x6a8,0x6a8,0x6a8,0x6a8,0x6a8,0x6a2,0x6a2,0x6a2,0x6a2,0x6a2,0x6a2,0x6a2,0x6a2,";
"    0x6a2,0x6a5,0x6a2,0x6a2,0x6a2,0x6a2,0x6a2,0x6a2,0x6a2,0x6a2,0x6a2,0x6a2,0x6a2,0x6a2,0x6a2,0x6a2,";
"    0x6a2,0x6a2,0x6a2,0x6a2,0xa05,0x6a5,0x35d,0x360,0x35d,0x35d,0x35d,0x360,0x35d,0x35d,0x35d,0x35d,";
"    0x360,0xa05,0x360,0x35d,0x363,0x35d,0x363,0x35d,0x363,0x35d,0x363,0x35d,0x363,0x35d,0x363,0x35d,";
"    0x363,0x35d,0x363,0x35d,0x363,0x35d,0x363,0x35d,0x363,0x35d,0x366,0x360,0x363,0x35d,0x363,0x35d,";
"    0x363,0x35d,0x363,0x35d,0x363,0x35d,0x35a,0x957,0x95a,0x93c,0x93c,0x114f,0x9ff,0x9ff,0xbbe,0xbbb,";
"    0xa08,0xa02,0xa08,0xa02,0x363,0x35d,0x363,0x35d,0x363,0x35d,0x363,0x35d,0x363,0x35d,0x363,0x35d,";
"    0x363,0x35d,0x363,0x35d,0x363,0x35d,0x363,0x35d,0x363,0x35d,0x363,0x35d,0x363,0x35d,0x363,0x35d,";
"    0x363,0x35d,0x363,0x35d,0x363,0x35d,0x363,0x35d,0x363,0x35d,0x363,0x35d,0x363,0x35d,0x363,0x35d,";
"    0x363,0x35d,0x363,0x35d,0x363,0x366,0x360,0x363,0x35d,0xbbe,0xbbb,0x363,0x35d,0xbbe,0xbbb,0x363,";
"    0x35d,0xbbe,0xbbb,0xf03,0x366,0x360,0x366,0x360,0x363,0x35d,0x366,0x360,0x363,0x35d,0x366,0x360,";
"    0x366,0x360,0x366,0x360,0x363,0x35d,0x366,0x360,0x366,0x360,0x366,0x360,0x363,0x35d,0x366,0x360,";
"    0xa0b,0xa05,0x366,0x360,0x366,0x360,0x366,0x360,0x366,0x360,0xdc5,0xdc2,0x366,0x360,0xf06,0xf03,";
"    0xf06,0xf03,0xf06,0xf03,0xc2d,0xc2a,0xc2d,0xc2a,0xc2d,0xc2a,0xc2d,0xc2a,0xc2d,0xc2a,0xc2d,0xc2a,";
"    0xc2d,0xc2a,0xc2d,0xc2a,0xf33,0xf30,0xf33,0xf30,0x1023,0x1020,0x1023,0x1020,0x1023,0x1020,0x1023,0x1020,";
"    0x1023,0x1020,0x1023,0x1020,0x1023,0x1020,0x1023,0x1020,0x1188,0x1185,0x1371,0x136e,0x1536,0x1533,0x1536,0x1533,";
"    0x1536,0x1533,0x1536,0x1533,0xc,0x378,0x378,0x378,0x378,0x378,0x378,0x378,0x378,0x378,0x378,0x378,";
"    0x378,0x378,0x378,0x378,0x378,0x378,0x378,0x378,0x378,0x378,0x378,0x378,0x378,0x378,0x378,0xc,";
"    0xc,0x37b,0x369,0x369,0x369,0x36f,0x369,0x36c,0x1941,0x372,0x372,0x372,0x372,0x372,0x372,0x372,";
"    0x372,0x372,0x372,0x372,0x372,0x372,0x372,0x372,0x372,0x372,0x372,0x372,0x372,0x372,0x372,0x372,";
"    0x372,0x372,0x372,0x372,0x372,0x372,0x372,0x372,0x372,0x372,0x372,0x375,0x1941,0x37e,0xa0e,0xc,";
"    0xc,0x1500,0x1500,0x141c,0xf,0x97e,0x97e,0x97e,0x97e,0x97e,0x97e,0x97e,0x97e,0x97e,0x97e,0x97e,";
"    0x97e,0x97e,0x97e,0x97e,0x97e,0x97e,0xdc8,0x97e,0x97e,0x97e,0x97e,0x97e,0x97e,0x97e,0x97e,0x97e,";
"    0x97e,0x97e,0x97e,0x97e,0x381,0x381,0x381,0x381,0x381,0x381,0x381,0x381,0x381,0x381,0xf09,0x381,";
"    0x381,0x381,0x38d,0x381,0x384,0x381,0x381,0x390,0x981,0xdcb,0xdce,0xdcb,0xf,0xf,0xf,0xf,";
"    0xf,0xf,0xf,0xf,0x393,0x393,0x393,0x393,0x393,0x393,0x393,0x393,0x393,0x393,0x393,0x393,";
"    0x393,0x393,0x393,0x393,0x393,0x393,0x393,0x393,0x393,0x393,0x393,0x393,0x393,0x393,0x393,0xf,";
"    0xf,0xf,0xf,0x1944,0x393,0x393,0x393,0x38a,0x387,0xf,0xf,0xf,0xf,0xf,0xf,0xf,";
"    0xf,0xf,0xf,0xf,0xcdb,0xcdb,0xcdb,0xcdb,0x141f,0x1503,0xfb1,0xfb1,0xfb1,0xfae,0xfae,0xdd4,";
"    0x8c7,0xcd5,0xcd2,0xcd2,0xcc9,0xcc9,0xcc9,0xcc9,0xcc9,0xcc9,0xfab,0xfab,0xfab,0xfab,0xfab,0x8c4,";
"    0x14fa,0x12,0xdd7,0x8ca,0x1338,0x3ae,0x3b1,0x3b1,0x3b1,0x3b1,0x3b1,0x3ae,0x3ae,0x3ae,0x3ae,0x3ae,";
"    0x3ae,0x3ae,0x3ae,0x3ae,0x3ae,0x3ae,0x3ae,0x3ae,0x3ae,0x3ae,0x3ae,0x3ae,0x3ae,0x3ae,0x3ae,0xfb4,";
"    0xfb4,0xfb4,0xfb4,0xfb4,0x8cd,0x3ae,0x3ae,0x3ae,0x3ae,0x3ae,0x3ae,0x3ae,0x3ae,0x3ae,0x3ae,0x942,";
"    0x942,0x942,0x942,0x942,0x942,0x942,0x942,0xb5e,0xb5e,0xb5e,0xcc9,0xccf,0xccc,0xdd1,0xdd1,0xdd1,";
"    0xdd1,0xdd1,0xdd1,0x1335,0x960,0x960,0x960,0x960,0x960,0x960,0x960,0x960,0x960,0x960,0x3a8,0x3a5,";
"    0x3a2,0x39f,0xbc1,0xbc1,0x93f,0x3ae,0x3ae,0x3ba,0x3ae,0x3b4,0x3b4,0x3b4,0x3b4,0x3ae,0x3ae,0x3ae,";
"    0x3ae,0x3ae,0x3ae,0x3ae,0x3ae,0x3ae,0x3ae,0x3ae,0x3ae,0x3ae,0x3ae,0x3ae,0x3ae,0x3ae,0x3ae,0x3ae,";
"    0x3ae,0x3ae,0x3ae,0x3ae,0x3ae,0x3ae,0x3ae,0x3ae,0x3ae,0x3ae,0x3ae,0x3ae,0x3ae,0x3ae,0x3ae,0x3ae,";
"    0x3ae,0x3ae,0x3ae,0x3ae,0x3ae,0x3ae,0x3ae,0x3ae,0x3ae,0x3ae,0x3ae,0x3ae,0x3ae,0x3ae,0x3ae,0x3ae,";
"    0x3ae,0x3ae,0x3ae,0x3ae,0x3ae,0x3ae,0x3ae,0x3ae,0xa14,0xa14,0x3ae,0x3ae,0x3ae,0x3ae,0x3ae,0xa14,";
"    0x3b1,0x3ae,0x3b1,0x3ae,0x3ae,0x3ae,0x3ae,0x3ae,0x3ae,0x3ae,0x3ae,0x3ae,0x3ae,0x3ae,0x3ae,0xa14,";
"    0x3ae,0x3ae,0x3ae,0x3b1,0x95d,0x3ae,0x399,0x399,0x399,0x399,0x399,0x399,0x399,0x396,0x39f,0x39c,";
"    0x39c,0x399,0x399,0x399,0x399,0x3b7,0x3b7,0x399,0x399,0x39f,0x39c,0x39c,0x39c,0x399,0xcd8,0xcd8,";
"    0x3ab,0x3ab,0x3ab,0x3ab,0x3ab,0x3ab,0x3ab,0x3ab,0x3ab,0x3ab,0xa14,0xa14,0xa14,0xa11,0xa11,0xcd8,";
"    0xa29,0xa29,0xa29,0xa23,0xa23,0xa23,0xa23,0xa23,0xa23,0xa23,0xa23,0xa20,0xa23,0xa20,0x15,0xa2c,";
"    0xa26,0xa17,0xa26,0xa26,0xa26,0xa26,0xa26,0xa26,0xa26,0xa26,0xa26,0xa26,0xa26,0xa26,0xa26,0xa26,";
"    0xa26,0xa26,0xa26,0xa26,0xa26,0xa26,0xa26,0xa26,0xa26,0xa26,0xa26,0xa26,0xa26,0xcde,0xcde,0xcde,";
"    0xa1d,0xa1d,0xa1d,0xa1d,0xa1d,0xa1d,0xa1d,0xa1d,0xa1d,0xa1d,0xa1d,0xa1d,0xa1d,0xa1d,0xa1d,0xa1d,";
"    0xa1a,0xa1a,0xa1a,0xa1a,0xa1a,0xa1a,0xa1a,0xa1a,0xa1a,0xa1a,0xa1a,0x15,0x15,0xcde,0xcde,0xcde,";
"    0xe37,0xe37,0xe37,0xe37,0xe37,0xe37,0xe37,0xe37,0xe37,0xe37,0xe37,0xe37,0xe37,0xe37,0xe37,0xe37,";
"    0xe37,0xe37,0xe37,0xe37,0xe37,0xe37,0xe37,0xe37,0xe37,0xe37,0xe37,0xe37,0xe37,0xe37,0x1035,0x1035,";
"    0x1035,0x1035,0x1035,0x1035,0x1035,0x1035,0x1035,0x1035,0x1035,0x1035,0x1035,0x1035,0x1035,0x1035,0x1035,0x1035,";
"    0xa32,0xa32,0xa32,0xa32,0xa32,0xa32,0xa32,0xa32,0xa32,0xa32,0xa32,0xa32,0xa32,0xa32,0xa32,0xa32,";
"    0xa32,0xa32,0xa32,0xa32,0xa32,0xa32,0xa32,0xa32,0xa32,0xa32,0xa32,0xa32,0xa32,0xa32,0xa32,0xa32,";
"    0xa32,0xa32,0xa32,0xa32,0xa32,0xa32,0xa2f,0xa2f,0xa2f,0xa2f,0xa2f,0xa2f,0xa2f,0xa2f,0xa2f,0xa2f,";
"    0xa2f,0xbc4,0x18,0x18,0x18,0x18,0x18,0x18,0x18,0x18,0x18,0x18,0x18,0x18,0x18,0x18,";
"    0xf4b,0xf4b,0xf4b,0xf4b,0xf4b,0xf4b,0xf4b,0xf4b,0xf4b,0xf4b,0xf4e,0xf4e,0xf4e,0xf4e,0xf4e,0xf4e,";
"    0xf4e,0xf4e,0xf4e,0xf4e,0xf4e,0xf4e,0xf4e,0xf4e,0xf4e,0xf4e,0xf4e,0xf4e,0xf4e,0xf4e,0xf4e,0xf4e,";
"    0xf4e,0xf4e,0xf4e,0xf4e,0xf4e,0xf4e,0xf4e,0xf4e,0xf4e,0xf4e,0xf4e,0xf42,0xf42,0xf42,0xf42,0xf42,";
"    0xf42,0xf42,0xf42,0xf42,0xf51,0xf51,0xf45,0xf45,0xf48,0xf57,0xf54,0x10b,0x10b,0x1968,0x196b,0x196b,";
"    0x18f9,0x18f9,0x18f9,0x18f9,0x18f9,0x18f9,0x18f9,0x18f9,0x18f9,0x18f9,0x18f9,0x252,0x252,0x252,0x252,0x252,";
"    0,0,0,0,0,0,0,0,0,0,0,0,0,0,0,0,";
"    0xb37,0xb37,0xb3a,0xb3a,0xb37,0xb37,0xb37,0xb37,0xb37,0xb37,0xb37,0xb37,0x72,0x72,0x72,0x72,";
"    0x15ba,0x15ba,0x15ba,0x15ba,0x1bc,0x1bc,0x1bc,0x1bc,0x1bc,0x1bc,0x1bc,0x1bc,0x1bc,0x1bc,0x1bc,0x15b7,";
"    0,0,0,0,0,0,0,0,0,0,0,0,0,0,0,0,";
"    0x1ef,0x1ef,0x1ef,0x1ef,0x1ef,0x1ef,0x1ef,0x1674,0x1674,0x1674,0x1674,0x1674,0x1674,0x1674,0x1674,0x1674,";
"    0,0,0,0,0,0,0,0,0,0,0,0,0,0,0,0,";
"    0x1fb,0x1fb,0x1fb,0x1fb,0x1fb,0x1fb,0x1fb,0x1fb,0x1fb,0x16ad,0x16ad,0x16ad,0x16ad,0x16ad,0x16ad,0x16ad,";
"    0,0,0,0,0,0,0,0,0,0,0,0,0,0,0,0,";
"    0x127b,0x127b,0x127b,0x127b,0x127b,0x127b,0x127b,0x127b,0x127b,0x174,0x174,0x174,0x174,0x174,0x174,0x174,";
"    0,0,0,0,0,0,0,0,0,0,0,0,0,0,0,0,";
"    0x276,0x276,0x276,0x276,0x276,0x276,0x276,0x276,0x276,0x276,0x276,0x276,0x276,0x276,0x276,0x276,";
"    0,0,0,0,0,0,0,0,0,0,0,0,0,0,0,0,";
"    0x1af7,0x1af7,0x1af7,0x1af7,0x1af7,0x1af7,0x1af7,0x1af7,0x1af7,0x1af7,0x1af7,0x1af7,0x1af7,0x1af7,0x1af7,0x1af7,";
"    0x1d1,0x1d1,0x1d1,0x1d1,0x1d1,0x1d1,0x1d1,0x1d1,0x1d1,0x1d1,0x1d1,0x1d1,0x1d1,0x1d1,0x1d1,0x1d1,";
"    0,0,0,0,0,0,0,0,0,0,0,0,0,0,0,0,";
"    0x14d6,0x14d6,0x14d6,0x14d6,0x14d6,0x14d6,0x14d6,0x14d6,0x14d6,0x14d6,0x1b6,0x1b6,0x1b6,0x1b6,0x1b6,0x1b6,";
"    0,0,0,0,0,0,0,0,0,0,0,0,0,0,0,0,";
"    0x25b,0x25b,0x25b,0x25b,0x25b,0x25b,0x25b,0x25b,0x25b,0x25b,0x25b,0x25b,0x25b,0x25b,0x25b,0x25b,";
"    0,0,0,0,0,0,0,0,0,0,0,0,0,0,0,0,";
"    0x18e7,0x18ea,0x18ea,0x24f,0x24f,0x24f,0x24f,0x24f,0x24f,0x24f,0x24f,0x24f,0x24f,0x24f,0x24f,0x24f,";
"    0,0,0,0,0,0,0,0,0,0,0,0,0,0,0,0,";
"    0x19b6,0x19b6,0x19b6,0x19b6,0x19b6,0x19b6,0x19b6,0x19b6,0x19b6,0x19b6,0x261,0x261,0x261,0x261,0x261,0x261,";
"    0,0,0,0,0,0,0,0,0,0,0,0,0,0,0,0,";
"    0x1b1b,0x29d,0x29d,0x29d,0x29d,0x29d,0x29d,0x29d,0x29d,0x29d,0x29d,0x29d,0x29d,0x29d,0x29d,0x29d,";
"    0x17a9,0x17a9,0x17a9,0x17a9,0x216,0x216,0x216,0x216,0x216,0x216,0x216,0x216,0x216,0x216,0x216,0x216,";
"    0,0,0,0,0,0,0,0,0,0,0,0,0,0,0,0,";
"    0x165f,0x165f,0x165f,0x165f,0x165f,0x165f,0x165f,0x165f,0x165f,0x165f,0x1e9,0x1e9,0x1e9,0x1e9,0x1665,0x1665,";
"    0,0,0,0,0,0,0,0,0,0,0,0,0,0,0,0,";
"    0x15b1,0x15b1,0x15b1,0x15b1,0x15b1,0x15b1,0x15b1,0x15b1,0x15b1,0x15b1,0x15b1,0x15b1,0x15b1,0x15b1,0x15b1,0x15b1,";
"    0x169b,0x169b,0x169b,0x169b,0x169b,0x169b,0x169b,0x169b,0x169b,0x169b,0x169b,0x169b,0x169b,0x169b,0x169b,0x169b,";
"    0,0,0,0,0,0,0,0,0,0,0,0,0,0,0,0,";
"    0x2a3,0x2a3,0x2a3,0x2a3,0x2a3,0x2a3,0x2a3,0x2a3,0x2a3,0x2a3,0x2a3,0x2a3,0x2a3,0x2a3,0x2a3,0x2a3,";
"    0,0,0,0,0,0,0,0,0,0,0,0,0,0,0,0,";
"    0x1713,0x1713,0x1713,0x1713,0x1fe,0x1fe,0x1fe,0x1fe,0x1fe,0x1fe,0x1fe,0x1fe,0x1fe,0x1fe,0x1fe,0x1fe,";
"    0,0,0,0,0,0,0,0,0,0,0,0,0,0,0,0,";
"    0xe2e,0xe2e,0xe2b,0xe2b,0xe2b,0xe2e,0xd8,0xd8,0xd8,0xd8,0xd8,0xd8,0xd8,0xd8,0xd8,0xd8,";
"    0,0,0,0,0,0,0,0,0,0,0,0,0,0,0,0,";
"    0x225,0x17c1,0x17c1,0x17c1,0x17c1,0x17c1,0x17c1,0x17c1,0x17c1,0x17c1,0x17c1,0x17c1,0x17c1,0x17c1,0x17c1,0x17c1,";
"    0,0,0,0,0,0,0,0,0,0,0,0,0,0,0,0,";
"    0x1845,0x1845,0x231,0x1845,0x1845,0x231,0x1845,0x1845,0x1845,0x1845,0x1845,0x231,0x231,0x231,0x231,0x231,";
"    0,0,0,0,0,0,0,0,0,0,0,0,0,0,0,0,";
"    0x1a6d,0x1a6d,0x1a6d,0x1a6d,0x1a6d,0x1a6d,0x1a6d,0x1a6d,0x1a6d,0x1a6d,0x282,0x282,0x282,0x282,0x1a70,0x1a6a,";
"    0,0,0,0,0,0,0,0,0,0,0,0,0,0,0,0,";
"    0x267,0x19cb,0x19cb,0x19cb,0x19cb,0x19cb,0x19cb,0x19cb,0x19cb,0x19cb,0x19cb,0x19cb,0x19cb,0x19cb,0x19cb,0x19cb,";
"    0x285,0x285,0x285,0x285,0x285,0x285,0x285,0x285,0x285,0x285,0x285,0x285,0x285,0x285,0x285,0x285,";
"    0,0,0,0,0,0,0,0,0,0,0,0,0,0,0,0,";
"    0,0,0,0,0,0,0,0,0,0,0,0,0,0,0x97b,0x97b,";
"    3,3,3,3,3,3,3,3,3,3,3,3,3,3,3,3,";
"    3,3,3,3,3,3,3,3,3,3,3,3,3,3,3,3,";
"    3,3,0x97b,0x97b,6,6,6,6,6,6,6,6,6,6,6,6,";
"    6,6,6,6,6,6,6,6,6,6,6,6,6,6,6,6,";
"    6,6,6,6,0xd8c,0xd8c,0xd8c,0xd8c,0xd8c,0xd8c,0xd8c,0xd8c,0xd8c,0xd8c,0xd8c,0xd8c,";
"    0xd8c,0xd8c,0xd8c,0xd8c,6,6,6,6,6,6,6,6,6,6,6,6,";
"    6,6,6,6,0x1509,0x3d5,0x3e4,0x3e4,0x1b,0x3ea,0x3ea,0x3ea,0x3ea,0x3ea,0x3ea,0x3ea,";
"    0x3ea,0x1b,0x1b,0x3ea,0x3ea,0x1b,0x1b,0x3ea,0x3ea,0x3ea,0x3ea,0x3ea,0x3ea,0x3ea,0x3ea,0x3ea,";
"    0x3ea,0x3ea,0x3ea,0x3ea,0x3ea,0x1b,0x3ea,0x3ea,0x3ea,0x3ea,0x3ea,0x3ea,0x3ea,0x1b,0x3ea,0x1b,";
"    0x1b,0x1b,0x3ea,0x3ea,0x3ea,0x3ea,0x1b,0x1b,0x3d8,0xce4,0x3d5,0x3e4,0x3e4,0x3d5,0x3d5,0x3d5,";
"    0x3d5,0x1b,0x1b,0x3e4,0x3e4,0x1b,0x1b,0x3e7,0x3e7,0x3db,0xddd,0x1b,0x1b,0x1b,0x1b,0x1b,";
"    0x1b,0x1b,0x1b,0x3d5,0x1b,0x1b,0x1b,0x1b,0x3ed,0x3ed,0x1b,0x3ed,0x3ea,0x3ea,0x3d5,0x3d5,";
"    0x1b,0x1b,0x966,0x966,0x966,0x966,0x966,0x966,0x966,0x966,0x966,0x966,0x3ea,0x3ea,0x3e1,0x3e1,";
"    0x3de,0x3de,0x3de,0x3de,0x3de,0x3e1,0x3de,0x115e,0x18a2,0x189f,0x1947,0x1b,0x1e,0xce7,0x3f0,0xcea,";
"    0x1e,0x3fc,0x3fc,0x3fc,0x3fc,0x3fc,0x3fc,0x1e,0x1e,0x1e,0x1e,0x3fc,0x3fc,0x1e,0x1e,0x3fc,";
"    0x3fc,0x3fc,0x3fc,0x3fc,0x3fc,0x3fc,0x3fc,0x3fc,0x3fc,0x3fc,0x3fc,0x3fc,0x3fc,0x1e,0x3fc,0x3fc,";
"    0x3fc,0x3fc,0x3fc,0x3fc,0x3fc,0x1e,0x3fc,0x3ff,0x1e,0x3fc,0x3ff,0x1e,0x3fc,0x3fc,0x1e,0x1e,";
"    0x3f3,0x1e,0x3f9,0x3f9,0x3f9,0x3f0,0x3f0,0x1e,0x1e,0x1e,0x1e,0x3f0,0x3f0,0x1e,0x1e,0x3f0,";
"    0x3f0,0x3f6,0x1e,0x1e,0x1e,0xfbd,0x1e,0x1e,0x1e,0x1e,0x1e,0x1e,0x1e,0x3ff,0x3ff,0x3ff,";
"    0x3fc,0x1e,0x3ff,0x1e,0x1e,0x1e,0x1e,0x1e,0x1e,0x1e,0x969,0x969,0x969,0x969,0x969,0x969,";
"    0x969,0x969,0x969,0x969,0x3f0,0x3f0,0x3fc,0x3fc,0x3fc,0xfbd,0x194a,0x1e,0x1e,0x1e,0x1e,0x1e,";
"    0x1e,0x1e,0x1e,0x1e,0x21,0x402,0x402,0x40b,0x21,0x40e,0x40e,0x40e,0x40e,0x40e,0x40e,0x40e,";
"    0xcf3,0x40e,0x21,0x40e,0x40e,0x40e,0x21,0x40e,0x40e,0x40e,0x40e,0x40e,0x40e,0x40e,0x40e,0x40e,";
"    0x40e,0x40e,0x40e,0x40e,0x40e,0x21,0x40e,0x40e,0x40e,0x40e,0x40e,0x40e,0x40e,0x21,0x40e,0x40e,";
"    0x21,0x40e,0x40e,0x40e,0x40e,0x40e,0x21,0x21,0x405,0x40e,0x40b,0x40b,0x40b,0x402,0x402,0x402,";
"    0x402,0x402,0x21,0x402,0x402,0x40b,0x21,0x40b,0x40b,0x408,0x21,0x21,0x40e,0x21,0x21,0x21,";
"    0x21,0x21,0x21,0x21,0x21,0x21,0x21,0x21,0x21,0x21,0x21,0x21,0x40e,0xcf3,0xced,0xced,";
"    0x21,0x21,0x96c,0x96c,0x96c,0x96c,0x96c,0x96c,0x96c,0x96c,0x96c,0x96c,0x1422,0xcf0,0x21,0x21,";
"    0x21,0x21,0x21,0x21,0x21,0x1725,0x18a5,0x18a5,0x18a5,0x18a8,0x18a8,0x18a8,0x24,0x411,0x420,0x420,";
"    0x24,0x426,0x426,0x426,0x426,0x426,0x426,0x426,0x426,0x24,0x24,0x426,0x426,0x24,0x24,0x426,";
"    0x426,0x426,0x426,0x426,0x426,0x426,0x426,0x426,0x426,0x426,0x426,0x426,0x426,0x24,0x426,0x426,";
"    0x426,0x426,0x426,0x426,0x426,0x24,0x426,0x426,0x24,0xcf6,0x426,0x426,0x426,0x426,0x24,0x24,";
"    0x414,0x426,0x411,0x411,0x420,0x411,0x411,0x411,0xfc0,0x24,0x24,0x420,0x423,0x24,0x24,0x423,";
"    0x423,0x417,0x24,0x24,0x24,0x24,0x24,0x24,0x24,0x1ab5,0x411,0x411,0x24,0x24,0x24,0x24,";
"    0x429,0x429,0x24,0x426,0x426,0x426,0xfc0,0xfc0,0x24,0x24,0x41d,0x41d,0x41d,0x41d,0x41d,0x41d,";
"    0x41d,0x41d,0x41d,0x41d,0x41a,0xcf6,0x1344,0x1344,0x1344,0x1344,0x1344,0x1344,0x24,0x24,0x24,0x24,";
"    0x24,0x24,0x24,0x24,0x27,0x27,0x42c,0x438,0x27,0x438,0x438,0x438,0x438,0x438,0x438,0x27,";
"    0x27,0x27,0x438,0x438,0x438,0x27,0x438,0x438,0x43b,0x438,0x27,0x27,0x27,0x438,0x438,0x27,";
"    0x438,0x27,0x438,0x438,0x27,0x27,0x27,0x438,0x438,0x27,0x27,0x27,0x438,0x438,0x438,0x27,";
"    0x27,0x27,0x438,0x438,0x438,0x438,0x438,0x438,0x438,0x438,0xde0,0x438,0x438,0x438,0x27,0x27,";
"    0x27,0x27,0x42c,0x432,0x42c,0x432,0x432,0x27,0x27,0x27,0x432,0x432,0x432,0x27,0x435,0x435,";
"    0x435,0x42f,0x27,0x27,0xfc3,0x27,0x27,0x27,0x27,0x27,0x27,0x42c,0x27,0x27,0x27,0x27,";
"    0x27,0x27,0x27,0x27,0x27,0x27,0xef7,0x972,0x972,0x972,0x972,0x972,0x972,0x972,0x972,0x972,";
"    0x96f,0x96f,0x96f,0xdb0,0xcf9,0xcf9,0xcf9,0xcf9,0xcf9,0xcfc,0xcf9,0x27,0x27,0x27,0x27,0x27,";
"    0x150c,0x44a,0x44a,0x44a,0x194d,0x44d,0x44d,0x44d,0x44d,0x44d,0x44d,0x44d,0x44d,0x2a,0x44d,0x44d,";
"    0x44d,0x2a,0x44d,0x44d,0x44d,0x44d,0x44d,0x44d,0x44d,0x44d,0x44d,0x44d,0x44d,0x44d,0x44d,0x44d,";
"    0x44d,0x2a,0x44d,0x44d,0x44d,0x44d,0x44d,0x44d,0x44d,0x44d,0x44d,0x44d,0x150f,0x44d,0x44d,0x44d,";
"    0x44d,0x44d,0x2a,0x2a,0x2a,0xfcc,0x43e,0x43e,0x43e,0x44a,0x44a,0x44a,0x44a,0x2a,0x43e,0x43e,";
"    0x441,0x2a,0x43e,0x43e,0x43e,0x444,0x2a,0x2a,0x2a,0x2a,0x2a,0x2a,0x2a,0x43e,0x43e,0x2a,";
"    0xfcc,0xfcc,0x1728,0x2a,0x2a,0x2a,0x2a,0x2a,0x44d,0x44d,0xfc6,0xfc6,0x2a,0x2a,0x447,0x447,";
"    0x447,0x447,0x447,0x447,0x447,0x447,0x447,0x447,0x2a,0x2a,0x2a,0x2a,0x2a,0x2a,0x2a,0x1a19,";
"    0xfc9,0xfc9,0xfc9,0xfc9,0xfc9,0xfc9,0xfc9,0xfc9,0x17e5,0x1512,0x456,0x456,0x1950,0x45c,0x45c,0x45c,";
"    0x45c,0x45c,0x45c,0x45c,0x45c,0x2d,0x45c,0x45c,0x45c,0x2d,0x45c,0x45c,0x45c,0x45c,0x45c,0x45c,";
"    0x45c,0x45c,0x45c,0x45c,0x45c,0x45c,0x45c,0x45c,0x45c,0x2d,0x45c,0x45c,0x45c,0x45c,0x45c,0x45c,";
"    0x45c,0x45c,0x45c,0x45c,0x2d,0x45c,0x45c,0x45c,0x45c,0x45c,0x2d,0x2d,0xcff,0xd02,0x456,0x450,";
"    0x459,0x456,0x450,0x456,0x456,0x2d,0x450,0x459,0x459,0x2d,0x459,0x459,0x450,0x453,0x2d,0x2d,";
"    0x2d,0x2d,0x2d,0x2d,0x2d,0x450,0x450,0x2d,0x2d,0x2d,0x2d,0x2d,0x2d,0x2d,0x45c,0x2d,";
"    0x45c,0x45c,0xf0f,0xf0f,0x2d,0x2d,0x975,0x975,0x975,0x975,0x975,0x975,0x975,0x975,0x975,0x975,";
"    0x2d,0xf12,0xf12,0x2d,0x2d,0x2d,0x2d,0x2d,0x2d,0x2d,0x2d,0x2d,0x2d,0x2d,0x2d,0x2d,";
"    0x18ab,0x1515,0x468,0x468,0x1ab8,0x46e,0x46e,0x46e,0x46e,0x46e,0x46e,0x46e,0x46e,0x30,0x46e,0x46e,";
"    0x46e,0x30,0x46e,0x46e,0x46e,0x46e,0x46e,0x46e,0x46e,0x46e,0x46e,0x46e,0x46e,0x46e,0x46e,0x46e,";
"    0x468,0x45f,0x45f,0x45f,0xfcf,0x30,0x468,0x468,0x468,0x30,0x46b,0x46b,0x46b,0x462,0x134a,0x17e8,";
"    0x30,0x30,0x30,0x30,0x17eb,0x17eb,0x17eb,0x45f,0x17e8,0x17e8,0x17e8,0x17e8,0x17e8,0x17e8,0x17e8,0x172b,";
"    0x46e,0x46e,0xfcf,0xfcf,0x30,0x30,0x465,0x465,0x465,0x465,0x465,0x465,0x465,0x465,0x465,0x465,";
"    0xfd2,0xfd2,0xfd2,0xfd2,0xfd2,0xfd2,0x17e8,0x17e8,0x17e8,0xfd5,0xfd8,0xfd8,0xfd8,0xfd8,0xfd8,0xfd8,";
"    0x33,0x1abb,0xa3e,0xa3e,0x33,0xa44,0xa44,0xa44,0xa44,0xa44,0xa44,0xa44,0xa44,0xa44,0xa44,0xa44,";
"    0xa44,0xa44,0xa44,0xa44,0xa44,0xa44,0xa44,0x33,0x33,0x33,0xa44,0xa44,0xa44,0xa44,0xa44,0xa44,";
"    0xa44,0xa44,0xa44,0xa44,0xa44,0xa44,0xa44,0xa44,0xa44,0xa44,0xa44,0xa44,0xa44,0xa44,0x33,0xa44,";
"    0xa44,0xa44,0xa44,0xa44,0xa44,0xa44,0xa44,0xa44,0x33,0xa44,0x33,0x33,0xa44,0xa44,0xa44,0xa44,";
"    0xa44,0xa44,0xa44,0x33,0x33,0x33,0xa38,0x33,0x33,0x33,0x33,0xa35,0xa3e,0xa3e,0xa35,0xa35,";
"    0xa35,0x33,0xa35,0x33,0xa3e,0xa3e,0xa41,0xa3e,0xa41,0xa41,0xa41,0xa35,0x33,0x33,0x33,0x33,";
"    0x33,0x33,0x1518,0x1518,0x1518,0x1518,0x1518,0x1518,0x1518,0x1518,0x1518,0x1518,0x33,0x33,0xa3e,0xa3e,";
"    0xa3b,0x33,0x33,0x33,0x33,0x33,0x33,0x33,0x33,0x33,0x33,0x33,0x36,0x489,0x489,0x489,";
"    0x489,0x489,0x489,0x489,0x489,0x489,0x489,0x489,0x489,0x489,0x489,0x489,0x489,0x489,0x489,0x489,";
"    0x489,0x489,0x489,0x489,0x489,0x489,0x489,0x489,0x489,0x489,0x489,0x489,0x489,0x474,0x489,0x486,";
"    0x474,0x474,0x474,0x474,0x474,0x474,0x47a,0x36,0x36,0x36,0x36,0x471,0x48f,0x48f,0x48f,0x48f,";
"    0x48f,0x489,0x48c,0x477,0x477,0x477,0x477,0x477,0x477,0x474,0x477,0x47d,0x483,0x483,0x483,0x483,";
"    0x483,0x483,0x483,0x483,0x483,0x483,0x480,0x480,0x36,0x36,0x36,0x36,0x36,0x36,0x36,0x36,";
"    0x36,0x36,0x36,0x36,0x36,0x36,0x36,0x36,0x36,0x36,0x36,0x36,0x36,0x36,0x36,0x36,";
"    0x36,0x36,0x36,0x36,0x36,0x36,0x36,0x36,0x39,0x49e,0x49e,0x39,0x49e,0x39,0x1a1f,0x49e,";
"    0x49e,0x1a1f,0x49e,0x39,0x1a1f,0x49e,0x1a1f,0x1a1f,0x1a1f,0x1a1f,0x1a1f,0x1a1f,0x49e,0x49e,0x49e,0x49e,";
"    0x1a1f,0x49e,0x49e,0x49e,0x49e,0x49e,0x49e,0x49e,0x1a1f,0x49e,0x49e,0x49e,0x39,0x49e,0x39,0x49e,";
"    0x1a1f,0x1a1f,0x49e,0x49e,0x1a1f,0x49e,0x49e,0x49e,0x49e,0x492,0x49e,0x49b,0x492,0x492,0x492,0x492,";
"    0x492,0x492,0x1a1c,0x492,0x492,0x49e,0x39,0x39,0x4a7,0x4a7,0x4a7,0x4a7,0x4a7,0x39,0x4a4,0x39,";
"    0x495,0x495,0x495,0x495,0x495,0x492,0x39,0x39,0x498,0x498,0x498,0x498,0x498,0x498,0x498,0x498,";
"    0x498,0x498,0x39,0x39,0x4a1,0x4a1,0x1425,0x1425,0x39,0x39,0x39,0x39,0x39,0x39,0x39,0x39,";
"    0x39,0x39,0x39,0x39,0x39,0x39,0x39,0x39,0x39,0x39,0x39,0x39,0x39,0x39,0x39,0x39,";
"    0x39,0x39,0x39,0x39,0x39,0x39,0x39,0x39,0x9b7,0x9b7,0x9b7,0x9ba,0x9b7,0x9b7,0x9b7,0x9b7,";
"    0x3c,0x9b7,0x9b7,0x9b7,0x9b7,0x9ba,0x9b7,0x9b7,0x9b7,0x9b7,0x9ba,0x9b7,0x9b7,0x9b7,0x9b7,0x9ba,";
"    0x9b7,0x9b7,0x9b7,0x9b7,0x9ba,0x9b7,0x9b7,0x9b7,0x9b7,0x9b7,0x9b7,0x9b7,0x9b7,0x9b7,0x9b7,0x9b7,";
"    0x9b7,0x9ba,0xa53,0xfe4,0xfe4,0x3c,0x3c,0x3c,0x3c,0x984,0x984,0x987,0x984,0x987,0x987,0x990,";
"    0x987,0x990,0x984,0x984,0x984,0x984,0x984,0x9b1,0x984,0x987,0x98a,0x98a,0x98d,0x996,0x98a,0x98a,";
"    0x9b7,0x9b7,0x9b7,0x9b7,0x1353,0x134d,0x134d,0x134d,0x984,0x984,0x984,0x987,0x984,0x984,0xa47,0x984,";
"    0x3c,0x984,0x984,0x984,0x984,0x987,0x984,0x984,0x984,0x984,0x987,0x984,0x984,0x984,0x984,0x987,";
"    0x984,0x984,0x984,0x984,0x987,0x984,0xa47,0xa47,0xa47,0x984,0x984,0x984,0x984,0x984,0x984,0x984,";
"    0xa47,0x987,0xa47,0xa47,0xa47,0x3c,0xa50,0xa50,0xa4d,0xa4d,0xa4d,0xa4d,0xa4d,0xa4d,0xa4a,0xa4d,";
"    0xa4d,0xa4d,0xa4d,0xa4d,0xa4d,0x3c,0xfdb,0xa4d,0xde3,0xde3,0xfde,0xfe1,0xfdb,0x1161,0x1161,0x1161,";
"    0x1161,0x1350,0x1350,0x3c,0x3c,0x3c,0x3c,0x3c,0x3c,0x3c,0x3c,0x3c,0x3c,0x3c,0x3c,0x3c,";
"    0x3c,0x3c,0x3c,0x3c,0x3c,0x3c,0x3c,0x3c,0x3c,0x3c,0x3c,0x3c,0x3c,0x3c,0x3c,0x3c,";
"    0x3c,0x3c,0x3c,0x3c,0x4ad,0x4ad,0x4ad,0x4ad,0x4ad,0x4ad,0x3f,0x142b,0x3f,0x3f,0x3f,0x3f,";
"    0x3f,0x142b,0x3f,0x3f,0x4aa,0x4aa,0x4aa,0x4aa,0x4aa,0x4aa,0x4aa,0x4aa,0x4aa,0x4aa,0x4aa,0x4aa,";
"    0x4aa,0x4aa,0x4aa,0x4aa,0xa7d,0xa7d,0xa7d,0xa7d,0xa7d,0xa7d,0xa7d,0xdf2,0xa7d,0x42,0xa7d,0xa7d,";
"    0xa7d,0xa7d,0x42,0x42,0xa7d,0xa7d,0xa7d,0xa7d,0xa7d,0xa7d,0xa7d,0x42,0xa7d,0x42,0xa7d,0xa7d,";
"    0xa7d,0xa7d,0x42,0x42,0xa7d,0xa7d,0xa7d,0xa7d,0xa7d,0xa7d,0xa7d,0xdf2,0xa7d,0x42,0xa7d,0xa7d,";
"    0xa7d,0xa7d,0x42,0x42,0xa7d,0xa7d,0xa7d,0xa7d,0xa7d,0xa7d,0xa7d,0xa7d,0xa7d,0xa7d,0xa7d,0xa7d,";
"    0xa7d,0xa7d,0xa7d,0xa7d,0xa7d,0xa7d,0xa7d,0xdf2,0xa7d,0x42,0xa7d,0xa7d,0xa7d,0xa7d,0x42,0x42,";
"    0xa7d,0xa7d,0xa7d,0xa7d,0xa7d,0xa7d,0xa7d,0x42,0xa7d,0x42,0xa7d,0xa7d,0xa7d,0xa7d,0x42,0x42,";
"    0xa7d,0xa7d,0xa7d,0xa7d,0xa7d,0xa7d,0xa7d,0xdf2,0xa7d,0xa7d,0xa7d,0xa7d,0xa7d,0xa7d,0xa7d,0x42,";
"    0xa7d,0xa7d,0xa7d,0xa7d,0xa7d,0xa7d,0xa7d,0xa7d,0xa7d,0xa7d,0xa7d,0xa7d,0xa7d,0xa7d,0xa7d,0xdf2,";
"    0xa7d,0x42,0xa7d,0xa7d,0xa7d,0xa7d,0x42,0x42,0xa7d,0xa7d,0xa7d,0xa7d,0xa7d,0xa7d,0xa7d,0xdf2,";
"    0xa7d,0xa7d,0xa7d,0xa7d,0xa7d,0xa7d,0xa7d,0xa7d,0xa7d,0xa7d,0xa7d,0xa7d,0xa7d,0xa7d,0xa7d,0xa7d,";
"    0xa7d,0xa7d,0xa7d,0x42,0x42,0x1356,0x1356,0xdec,0xdef,0xa77,0xa80,0xa74,0xa74,0xa74,0xa74,0xa80,";
"    0xa80,0xa7a,0xa7a,0xa7a,0xa7a,0xa7a,0xa7a,0xa7a,0xa7a,0xa7a,0xa71,0xa71,0xa71,0xa71,0xa71,0xa71,";
"    0xa71,0xa71,0xa71,0xa71,0xa71,0x42,0x42,0x42,0xa83,0xa83,0xa83,0xa83,0xa83,0xa83,0xa83,0xa83,";
"    0xa83,0xa83,0xa83,0xa83,0xa83,0xa83,0xa83,0xa83,0xa83,0xa83,0xa83,0xa83,0xa83,0x1731,0x45,0x45,";
"    0x172e,0x172e,0x172e,0x172e,0x172e,0x172e,0x45,0x45,0xa95,0xa98,0xa98,0xa98,0xa98,0xa98,0xa98,0xa98,";
"    0xa98,0xa98,0xa98,0xa98,0xa98,0xa98,0xa98,0xa98,0xa98,0xa98,0xa98,0xa98,0xa98,0xa98,0xa98,0xa98,";
"    0xa98,0xa98,0xa98,0xa92,0xa8f,0x48,0x48,0x48,0xa9e,0xa9e,0xa9e,0xa9e,0xa9e,0xa9e,0xa9e,0xa9e,";
"    0xa9e,0xa9e,0xa9e,0xa9b,0xa9b,0xa9b,0xa9e,0xa9e,0xa9e,0x151b,0x151b,0x151b,0x151b,0x151b,0x151b,0x151b,";
"    0x151b,0x4b,0x4b,0x4b,0x4b,0x4b,0x4b,0x4b,0xabf,0xabf,0xabf,0xabf,0xabf,0xabf,0xaa1,0xabf,";
"    0xabf,0xaa4,0xaa4,0xaa4,0xaa4,0xaa4,0xaa4,0xaa4,0xaa4,0xaa4,0xaa7,0xaa4,0xab6,0xab6,0xab9,0xac2,";
"    0xab0,0xaad,0xab6,0xab3,0xac2,0xd05,0x4e,0x4e,0xabc,0xabc,0xabc,0xabc,0xabc,0xabc,0xabc,0xabc,";
"    0xabc,0xabc,0x4e,0x4e,0x4e,0x4e,0x4e,0x4e,0xd08,0xd08,0xd08,0xd08,0xd08,0xd08,0xd08,0xd08,";
"    0xd08,0xd08,0x4e,0x4e,0x4e,0x4e,0x4e,0x4e,0xad1,0xad1,0xb52,0xb55,0xad7,0xb4f,0xad4,0xad1,";
"    0xada,0xae9,0xadd,0xaec,0xaec,0xaec,0xac8,0x51,0xae0,0xae0,0xae0,0xae0,0xae0,0xae0,0xae0,0xae0,";
"    0xae0,0xae0,0x51,0x51,0x51,0x51,0x51,0x51,0xae3,0xae3,0xae3,0xae3,0xae3,0xae3,0xae3,0xae3,";
"    0xae3,0xae3,0xae3,0xae3,0xae3,0xae3,0xae3,0xae3,0xae3,0xae3,0xae3,0xae3,0xae3,0xae3,0xae3,0xae3,";
"    0x1953,0x51,0x51,0x51,0x51,0x51,0x51,0x51,0xae3,0xae3,0xae3,0xae3,0xae3,0xae3,0xae3,0xae3,";
"    0xae3,0xacb,0x1002,0x51,0x51,0x51,0x51,0x51,0x11b8,0x11b8,0x11b8,0x11b8,0x11b8,0x11b8,0x11b8,0x11b8,";
"    0x11b8,0x11b8,0x11b8,0x11b8,0x11b8,0x11b8,0x11b8,0x11b8,0x4cb,0x4cb,0x4cb,0x4cb,0x4cb,0x4cb,0x4cb,0x4cb,";
"    0x4ce,0x4ce,0x4ce,0x4ce,0x4ce,0x4ce,0x4ce,0x4ce,0x4cb,0x4cb,0x4cb,0x4cb,0x4cb,0x4cb,0x54,0x54,";
"    0x4ce,0x4ce,0x4ce,0x4ce,0x4ce,0x4ce,0x54,0x54,0x4cb,0x4cb,0x4cb,0x4cb,0x4cb,0x4cb,0x4cb,0x4cb,";
"    0x54,0x4ce,0x54,0x4ce,0x54,0x4ce,0x54,0x4ce,0x4cb,0x4cb,0x4cb,0x4cb,0x4cb,0x4cb,0x4cb,0x4cb,";
"    0x4ce,0x4ce,0x4ce,0x4ce,0x4ce,0x4ce,0x4ce,0x4ce,0x4cb,0x4cb,0x4cb,0x4cb,0x4cb,0x4cb,0x4cb,0x4cb,";
"    0x4cb,0x4cb,0x4cb,0x4cb,0x4cb,0x4cb,0x54,0x54,0x4cb,0x4cb,0x4cb,0x4cb,0x4cb,0x4cb,0x4cb,0x4cb,";
"    0x4ce,0x4ce,0x4ce,0x4ce,0x4ce,0x4ce,0x4ce,0x4ce,0x4cb,0x4cb,0x4cb,0x4cb,0x4cb,0x54,0x4cb,0x4cb,";
"    0x4ce,0x4ce,0x4ce,0x4ce,0x4ce,0x4c5,0x4cb,0x4c5,0x4c5,0x4c2,0x4cb,0x4cb,0x4cb,0x54,0x4cb,0x4cb,";
"    0x4ce,0x4ce,0x4ce,0x4ce,0x4ce,0x4c2,0x4c2,0x4c2,0x4cb,0x4cb,0x4cb,0x4cb,0x54,0x54,0x4cb,0x4cb,";
"    0x4ce,0x4ce,0x4ce,0x4ce,0x54,0x4c2,0x4c2,0x4c2,0x4cb,0x4cb,0x4cb,0x4cb,0x4cb,0x4cb,0x4cb,0x4cb,";
"    0x4ce,0x4ce,0x4ce,0x4ce,0x4ce,0x4c2,0x4c2,0x4c2,0x54,0x54,0x4cb,0x4cb,0x4cb,0x54,0x4cb,0x4cb,";
"    0x4ce,0x4ce,0x4ce,0x4ce,0x4ce,0x4c8,0x4c5,0x54,0xbca,0xbcd,0xbcd,0xbcd,0x100b,0x57,0x14f7,0x14f7,";
"    0x14f7,0x14f7,0x4d7,0x4d7,0x4d7,0x4d7,0x4d7,0x4d7,0x522,0xbdf,0x5a,0x5a,0x6e1,0x522,0x522,0x522,";
"    0x522,0x522,0x528,0x53a,0x528,0x534,0x52e,0x6e4,0x51f,0x6de,0x6de,0x6de,0x6de,0x51f,0x51f,0x51f,";
"    0x51f,0x51f,0x525,0x537,0x525,0x531,0x52b,0x5a,0xdfb,0xdfb,0xdfb,0xdfb,0xdfb,0x1359,0x1359,0x1359,";
"    0x1359,0x1359,0x1359,0x1359,0x1359,0x5a,0x5a,0x5a,0x5d,0x5d,0x5d,0x5d,0x5d,0x5d,0x5d,0x5d,";
"    0x5d,0x5d,0x5d,0x5d,0x5d,0x5d,0x5d,0x5d,0x549,0x549,0x549,0x549,0x549,0x549,0x549,0x549,";
"    0x549,0x549,0x549,0x549,0x549,0x546,0x546,0x546,0x546,0x549,0xafb,0xafe,0xbe5,0xbeb,0xbeb,0xbe8,";
"    0xbe8,0xbe8,0xbe8,0xe01,0xf15,0xf15,0xf15,0xf15,0x114c,0x60,0x60,0x60,0x60,0x60,0x60,0x60,";
"    0x60,0x60,0x60,0x60,0x60,0x60,0x60,0x60,0x579,0x579,0x579,0xb07,0xf1e,0x1011,0x1011,0x1011,";
"    0x1011,0x12ab,0x1737,0x1737,0x63,0x63,0x63,0x63,0x70b,0x70b,0x70b,0x70b,0x70e,0x70e,0x70e,0x70e,";
"    0x70e,0x70e,0x585,0x585,0x582,0x582,0x582,0x582,0x5ac,0x5ac,0x5ac,0x5ac,0x5ac,0xb13,0xb13,0x66,";
"    0x66,0x66,0x66,0x66,0x66,0x66,0x66,0x66,0x66,0x66,0x66,0x66,0x66,0x66,0x66,0x66,";
"    0x66,0x66,0x66,0x66,0x66,0x66,0x66,0x66,0x5af,0x5af,0x5af,0x5af,0x5af,0x5af,0x5af,0x5af,";
"    0x5af,0x5af,0x5af,0x69,0x69,0x69,0x69,0x69,0x69,0x69,0x69,0x69,0x69,0x69,0x69,0x69,";
"    0x69,0x69,0x69,0x69,0x69,0x69,0x69,0x69,0xb2e,0xb2e,0xb2e,0xb2e,0xb2e,0xb2e,0xb2e,0xb2e,";
"    0xb2e,0xb2e,0xb2e,0xb2e,0xb2e,0xb2e,0xb2e,0xb2e,0xb2e,0xb2e,0xb2e,0xb2e,0xb2e,0xb2e,0xb2e,0xb2e,";
"    0xb2e,0xb2e,0x6c,0xb2e,0xb2e,0xb2e,0xb2e,0xb31,0xb2e,0xb2e,0xb2e,0xb2e,0xb2e,0xb2e,0xb2e,0xb2e,";
"    0xb2e,0xb2e,0xb2e,0xb2e,0xb2e,0xb2e,0xb2e,0xb2e,0xb2e,0xb2e,0xb2e,0xb31,0x6c,0x6c,0x6c,0x6c,";
"    0x6c,0x6c,0x6c,0x6c,0x6c,0x6c,0x6c,0x6c,0xb34,0xb34,0xb34,0xb34,0xb34,0xb34,0xb34,0xb34,";
"    0xb34,0xb34,0xb34,0xb34,0xb34,0xb34,0xb34,0xb34,0xb34,0xb34,0xb34,0xb34,0xb34,0xb34,0x6f,0x6f,";
"    0x6f,0x6f,0x6f,0x6f,0x6f,0x6f,0x6f,0x6f,0x75,0x843,0x83d,0x843,0x83d,0x843,0x83d,0x843,";
"    0x83d,0x843,0x83d,0x83d,0x840,0x83d,0x840,0x83d,0x840,0x83d,0x840,0x83d,0x840,0x83d,0x840,0x83d,";
"    0x840,0x83d,0x840,0x83d,0x840,0x83d,0x840,0x83d,0x83d,0x83d,0x83d,0x843,0x83d,0x843,0x83d,0x843,";
"    0x83d,0x83d,0x83d,0x83d,0x83d,0x83d,0x843,0x83d,0x83d,0x83d,0x83d,0x83d,0x840,0xc93,0xc93,0x75,";
"    0x75,0x954,0x954,0x91e,0x91e,0x846,0x849,0xc90,0x78,0x78,0x78,0x78,0x78,0x85b,0x85b,0x85b,";
"    0x85b,0x85b,0x85b,0x85b,0x85b,0x85b,0x85b,0x85b,0x85b,0x85b,0x85b,0x85b,0x85b,0x85b,0x85b,0x85b,";
"    0x85b,0x85b,0x85b,0x85b,0x85b,0x85b,0x85b,0x85b,0x85b,0x113a,0x191a,0x1a01,0x7b,0x85e,0x85e,0x85e,";
"    0x85e,0x85e,0x85e,0x85e,0x85e,0x85e,0x85e,0x85e,0x85e,0x85e,0x85e,0x85e,0x85e,0x85e,0x85e,0x7b,";
"    0x927,0x927,0x92a,0x92a,0x92a,0x92a,0x92a,0x92a,0x92a,0x92a,0x92a,0x92a,0x92a,0x92a,0x92a,0x92a,";
"    0x867,0x867,0x867,0x867,0x867,0x867,0x867,0x867,0x867,0x867,0x867,0x867,0x867,0x867,0x867,0x867,";
"    0x867,0x867,0x867,0x867,0x867,0x867,0x867,0x867,0x867,0x867,0x867,0x867,0x867,0xd98,0xd98,0x7e,";
"    0xb46,0xb46,0xb46,0xb46,0xb46,0xb46,0xb46,0xb46,0xb46,0xb46,0xb46,0xb46,0xb46,0x81,0x81,0x81,";
"    0xb4c,0xb4c,0xb4c,0xb4c,0xb4c,0xb4c,0xb4c,0xb4c,0xb4c,0xb4c,0xb4c,0xb4c,0xb4c,0xb4c,0xb4c,0xb4c,";
"    0xb4c,0xc9c,0xb4c,0xb4c,0xb4c,0xc9c,0xb4c,0x84,0x84,0x84,0x84,0x84,0x84,0x84,0x84,0x84,";
"    0x11df,0x11df,0x11df,0x11df,0x11df,0x11df,0x11df,0x11df,0x11df,0x11df,0x11df,0x11df,0x11df,0x11df,0x11df,0x11df,";
"    0x9db,0x9db,0x9db,0x9db,0x87,0x87,0x87,0x87,0x87,0x87,0x87,0x87,0x87,0x87,0x87,0x87,";
"    0x1254,0x1254,0x1254,0x1254,0x1254,0x1254,0x1254,0x1254,0x1254,0x1254,0x1254,0x1254,0x1254,0x1254,0x1254,0x1254,";
"    0x60c,0x60c,0x60c,0x60c,0x60c,0x60c,0x60c,0x8a,0x8a,0x8a,0x8a,0x8a,0x8a,0x8a,0x8a,0x8a,";
"    0x8a,0x8a,0x8a,0x5fa,0x5fa,0x5fa,0x5fa,0x5fa,0x8a,0x8a,0x8a,0x8a,0x8a,0xb1f,0x5fd,0x603,";
"    0x609,0x609,0x609,0x609,0x609,0x609,0x609,0x609,0x609,0x600,0x603,0x603,0x603,0x603,0x603,0x603,";
"    0x603,0x603,0x603,0x603,0x603,0x603,0x603,0x8a,0x603,0x603,0x603,0x603,0x603,0x8a,0x603,0x8a,";
"    0x603,0x603,0x8a,0x603,0x603,0x8a,0x603,0x603,0x603,0x603,0x603,0x603,0x603,0x603,0x603,0x606,";
"    0x61e,0x618,0x61e,0x618,0x61b,0x621,0x61e,0x618,0x61b,0x621,0x61e,0x618,0x61b,0x621,0x61e,0x618,";
"    0x136b,0x136b,0x8d,0x8d,0x8d,0x8d,0x8d,0x8d,0x8d,0x8d,0x8d,0x8d,0x8d,0x8d,0x8d,0x8d,";
"    0x8d,0x8d,0x8d,0x61e,0x618,0x61b,0x621,0x61e,0x618,0x61e,0x618,0x61e,0x618,0x61e,0x61e,0x618,";
"    0x8d,0x8d,0x8d,0x8d,0x8d,0x8d,0x8d,0x8d,0x8d,0x8d,0x8d,0x8d,0x8d,0x8d,0x8d,0x8d,";
"    0x61b,0x618,0x61b,0x61b,0x61b,0x61b,0x61b,0x61b,0x618,0x61b,0x618,0x618,0x61b,0x61b,0x618,0x618,";
"    0x618,0x618,0x618,0x61b,0x618,0x618,0x61b,0x618,0x61b,0x61b,0x61b,0x618,0x61b,0x61b,0x61b,0x61b,";
"    0x8d,0x8d,0x61b,0x61b,0x61b,0x61b,0x618,0x618,0x61b,0x618,0x618,0x618,0x618,0x61b,0x618,0x618,";
"    0x618,0x618,0x618,0x61b,0x61b,0x61b,0x618,0x618,0x8d,0x8d,0x8d,0x8d,0x8d,0x8d,0x8d,0x8d,";
"    0xb6a,0xb6a,0xb6a,0xb6a,0xb6a,0xb6a,0xb6a,0xb6a,0xb6a,0xb6a,0xb6a,0xb6a,0xb6a,0xb6a,0xb6a,0xb6a,";
"    0x61e,0x61e,0x978,0x61e,0x61e,0x61e,0x61e,0x61e,0x61e,0x61e,0x615,0x615,0xc24,0xdb3,0x8d,0x8d,";
"    0x87f,0x891,0x88e,0x891,0x88e,0xcb1,0xcb1,0xda4,0xda1,0x882,0x882,0x882,0x882,0x894,0x894,0x894,";
"    0x8ac,0x8af,0x8be,0x90,0x8b2,0x8b5,0x8c1,0x8c1,0x8a9,0x8a0,0x89a,0x8a0,0x89a,0x8a0,0x89a,0x89d,";
"    0x89d,0x8b8,0x8b8,0x8bb,0x8b8,0x8b8,0x8b8,0x90,0x8b8,0x8a6,0x8a3,0x89d,0x90,0x90,0x90,0x90,";
"    0x62a,0x636,0x62a,0xc27,0x62a,0x93,0x62a,0x636,0x62a,0x636,0x62a,0x636,0x62a,0x636,0x62a,0x636,";
"    0x636,0x633,0x62d,0x630,0x636,0x633,0x62d,0x630,0x636,0x633,0x62d,0x630,0x636,0x633,0x62d,0x633,";
"    0x62d,0x633,0x62d,0x630,0x636,0x633,0x62d,0x633,0x62d,0x633,0x62d,0x633,0x62d,0x93,0x93,0x627,";
"    0x77d,0x780,0x795,0x798,0x777,0x780,0x780,0x99,0x75f,0x762,0x762,0x762,0x762,0x75f,0x75f,0x99,";
"    0x96,0x96,0x96,0x96,0x96,0x96,0x96,0x96,0x96,0xb22,0xb22,0xb22,0x9de,0x759,0x639,0x639,";
"    0x99,0x7a7,0x786,0x777,0x780,0x77d,0x777,0x789,0x77a,0x774,0x777,0x795,0x78c,0x783,0x7a4,0x777,";
"    0x7a1,0x7a1,0x7a1,0x7a1,0x7a1,0x7a1,0x7a1,0x7a1,0x7a1,0x7a1,0x792,0x78f,0x795,0x795,0x795,0x7a7,";
"    0x768,0x765,0x765,0x765,0x765,0x765,0x765,0x765,0x765,0x765,0x765,0x765,0x765,0x765,0x765,0x765,";
"    0x765,0x765,0x765,0x765,0x765,0x765,0x765,0x765,0x765,0x765,0x765,0x765,0x765,0x765,0x765,0x99,";
"    0x99,0x99,0x765,0x765,0x765,0x765,0x765,0x765,0x99,0x99,0x765,0x765,0x765,0x765,0x765,0x765,";
"    0x99,0x99,0x765,0x765,0x765,0x765,0x765,0x765,0x99,0x99,0x765,0x765,0x765,0x99,0x99,0x99,";
"    0xb6d,0xb6d,0xb6d,0xb6d,0x9c,0x9c,0x9c,0x9c,0x9c,0x9c,0x9c,0x9c,0x9c,0x18b7,0x18b7,0x18b7,";
"    0xb73,0xb73,0xb73,0xb73,0xb73,0xb73,0xb73,0xb73,0xb73,0xb73,0xb73,0xb73,0xb73,0xb73,0xb73,0xb73,";
"    0xb73,0xb73,0xb73,0x9f,0x9f,0x9f,0x9f,0x9f,0x1683,0x1683,0x1683,0x1683,0x1683,0x1683,0x1683,0x1683,";
"    0x1683,0x1683,0x1683,0x1683,0x1683,0x1683,0x1683,0x1683,0xb7c,0xb7c,0xb7c,0xb7c,0xb7c,0xb7c,0xb7c,0xb7c,";
"    0xb7c,0xb7c,0xb7c,0xb7c,0xb7c,0xb7c,0xb7c,0xb7c,0xb7c,0xb7c,0xb7c,0xb7c,0xb7c,0xb7c,0xa2,0xa2,";
"    0xa2,0xa2,0xa2,0xa2,0xa2,0xa2,0xa2,0xa2,0xb88,0xb88,0xb88,0xb88,0xb88,0xb88,0xb88,0xa5,";
"    0xa5,0x101d,0xb88,0xb88,0xb88,0xb88,0xb88,0xb88,0xb88,0xb88,0xb88,0xb88,0xb88,0xb88,0xb88,0xb88,";
"    0xb88,0xb88,0xb88,0xb88,0xb88,0xb88,0xb88,0xb88,0x173d,0x173d,0x173d,0x173d,0x173d,0x173d,0x173d,0x173d,";
"    0x173d,0xa5,0xa5,0xa5,0xa5,0xa5,0xa5,0xa5,0xa5,0xa5,0xa5,0xa5,0xa5,0xa5,0xa5,0xa5,";
"    0xa5,0xa5,0xa5,0xa5,0xa5,0xa5,0xa5,0xa5,0xba0,0xba0,0xba0,0xba0,0xba0,0xba0,0xba0,0xba0,";
"    0xba0,0xba0,0xba0,0xba0,0xba0,0xba0,0xb9d,0xb9d,0xb9d,0xb9d,0xb9d,0xb9d,0xb9d,0xa8,0xb9d,0xb9d,";
"    0xb9d,0xb9d,0xb9d,0xb9d,0xb9d,0xb9d,0xb9d,0xb9d,0xba0,0xba0,0xb9d,0xb9d,0xb9d,0xb9d,0xb9d,0xb9d,";
"    0xb9d,0xb9d,0xb9d,0xb9d,0xb9d,0xb9d,0xb9d,0xb9d,0xb9d,0xb9d,0xb9d,0xb9d,0xb9d,0xb9d,0xb9d,0xb9d,";
"    0xb9d,0xb9d,0xb9d,0xb9d,0xba0,0xa8,0xba0,0xba0,0xa8,0xa8,0xba0,0xa8,0xa8,0xba0,0xba0,0xa8,";
"    0xa8,0xba0,0xba0,0xba0,0xba0,0xa8,0xba0,0xba0,0xba0,0xba0,0xba0,0xba0,0xba0,0xba0,0xb9d,0xb9d,";
"    0xb9d,0xb9d,0xa8,0xb9d,0xa8,0xb9d,0xb9d,0xb9d,0xb9d,0xd29,0xb9d,0xb9d,0xa8,0xb9d,0xb9d,0xb9d,";
"    0xb9d,0xb9d,0xb9d,0xb9d,0xb9d,0xb9d,0xb9d,0xb9d,0xba0,0xba0,0xba0,0xba0,0xba0,0xba0,0xba0,0xba0,";
"    0xba0,0xba0,0xba0,0xba0,0xba0,0xba0,0xba0,0xba0,0xb9d,0xb9d,0xb9d,0xb9d,0xba0,0xba0,0xa8,0xba0,";
"    0xba0,0xba0,0xba0,0xa8,0xa8,0xba0,0xba0,0xba0,0xba0,0xba0,0xba0,0xba0,0xba0,0xa8,0xba0,0xba0,";
"    0xba0,0xba0,0xba0,0xba0,0xba0,0xa8,0xb9d,0xb9d,0xb9d,0xb9d,0xb9d,0xb9d,0xb9d,0xb9d,0xb9d,0xb9d,";
"    0xb9d,0xb9d,0xb9d,0xb9d,0xb9d,0xb9d,0xb9d,0xb9d,0xb9d,0xb9d,0xb9d,0xb9d,0xb9d,0xb9d,0xb9d,0xb9d,";
"    0xba0,0xba0,0xa8,0xba0,0xba0,0xba0,0xba0,0xa8,0xba0,0xba0,0xba0,0xba0,0xba0,0xa8,0xba0,0xa8,";
"    0xa8,0xa8,0xba0,0xba0,0xba0,0xba0,0xba0,0xba0,0xba0,0xa8,0xb9d,0xb9d,0xb9d,0xb9d,0xb9d,0xb9d,";
"    0xb9d,0xb9d,0xb9d,0xb9d,0xb9d,0xb9d,0xb9d,0xb9d,0xe16,0xe16,0xa8,0xa8,0xba0,0xba0,0xba0,0xba0,";
"    0xba0,0xba0,0xba0,0xba0,0xba0,0xba0,0xba0,0xba0,0xba0,0xba0,0xba0,0xba0,0xba0,0xba0,0xba0,0xba0,";
"    0xba0,0xba0,0xba0,0xba0,0xb9d,0xb9d,0xb9d,0xb97,0xb9d,0xb9d,0xb9d,0xb9d,0xb9d,0xb9d,0xf2d,0xf2a,";
"    0xa8,0xa8,0xb9a,0xb9a,0xb9a,0xb9a,0xb9a,0xb9a,0xb9a,0xb9a,0xb9a,0xb9a,0xb9a,0xb9a,0xb9a,0xb9a,";
"    0xb9a,0xb9a,0xb9a,0xb9a,0xab,0xba6,0xab,0xab,0xab,0xab,0xab,0xab,0xab,0xab,0xab,0xab,";
"    0xab,0xab,0xab,0xab,0xab,0xab,0xab,0xab,0xab,0xab,0xab,0xab,0xab,0xab,0xab,0xab,";
"    0xab,0xab,0xab,0xab,0xc36,0xc36,0xc36,0xc36,0xc36,0xc36,0xc36,0xc36,0xc36,0xc36,0xc36,0xc36,";
"    0xc36,0xae,0xc36,0xc36,0xc36,0xc36,0xc30,0xc30,0xc33,0xae,0xae,0xae,0xae,0xae,0xae,0xae,";
"    0xae,0xae,0xae,0xae,0xc3f,0xc3f,0xc3f,0xc3f,0xc3f,0xc3f,0xc3f,0xc3f,0xc3f,0xc3f,0xc3f,0xc3f,";
"    0xc3f,0xc3f,0xc3f,0xc3f,0xc3f,0xc3f,0xc39,0xc39,0xc3c,0xca5,0xca5,0xb1,0xb1,0xb1,0xb1,0xb1,";
"    0xb1,0xb1,0xb1,0xb1,0xc45,0xc45,0xc45,0xc45,0xc45,0xc45,0xc45,0xc45,0xc45,0xc45,0xc45,0xc45,";
"    0xc45,0xc45,0xc45,0xc45,0xc45,0xc45,0xc42,0xc42,0xb4,0xb4,0xb4,0xb4,0xb4,0xb4,0xb4,0xb4,";
"    0xb4,0xb4,0xb4,0xb4,0xc4b,0xc4b,0xc4b,0xc4b,0xc4b,0xc4b,0xc4b,0xc4b,0xc4b,0xc4b,0xc4b,0xc4b,";
"    0xc4b,0xb7,0xc4b,0xc4b,0xc4b,0xb7,0xc48,0xc48,0xb7,0xb7,0xb7,0xb7,0xb7,0xb7,0xb7,0xb7,";
"    0xb7,0xb7,0xb7,0xb7,0xd3b,0xd3b,0xd3b,0xd3b,0xd3b,0xd3b,0xd3b,0xd3b,0xd3b,0xd3b,0xd3b,0xd3b,";
"    0xd3b,0xd3b,0xd3b,0xd3b,0xd3b,0xd3b,0xd3b,0xd3b,0xd3b,0xd3b,0xd3b,0xd3b,0xd3b,0xd3b,0xd3b,0xd3b,";
"    0xd3b,0x1539,0x1539,0xba,0xd2c,0xd2c,0xd2c,0xd38,0xd38,0xd38,0xd38,0xd2c,0xd2c,0xd38,0xd38,0xd38,";
"    0xba,0xba,0xba,0xba,0xd38,0xd38,0xd2c,0xd38,0xd38,0xd38,0xd38,0xd38,0xd38,0xd2f,0xd2f,0xd2f,";
"    0xba,0xba,0xba,0xba,0xd32,0xba,0xba,0xba,0xd3e,0xd3e,0xd35,0xd35,0xd35,0xd35,0xd35,0xd35,";
"    0xd35,0xd35,0xd35,0xd35,0xd41,0xd41,0xd41,0xd41,0xd41,0xd41,0xd41,0xd41,0xd41,0xd41,0xd41,0xd41,";
"    0xd41,0xd41,0xd41,0xd41,0xd41,0xd41,0xbd,0xbd,0xd41,0xd41,0xd41,0xd41,0xd41,0xbd,0xbd,0xbd,";
"    0xbd,0xbd,0xbd,0xbd,0xbd,0xbd,0xbd,0xbd,0x153c,0x153c,0x153c,0x153c,0x153c,0x153c,0x153c,0x153c,";
"    0x153c,0x153c,0x153c,0x153c,0x153c,0x153c,0x153c,0x153c,0x153c,0x153c,0x153c,0x153c,0xc0,0xc0,0x153c,0x153c,";
"    0x153c,0x153c,0x153c,0x153c,0x153c,0x153c,0x153c,0x153c,0x153c,0x153c,0x153c,0x153c,0x153c,0x153c,0x153c,0x153c,";
"    0x153c,0x153c,0x153c,0x153c,0x153c,0x153c,0xc0,0x1abe,0x153c,0x153c,0x153c,0x153c,0x153c,0x153c,0x153c,0x153c,";
"    0xd68,0xd68,0xd68,0xd68,0xd68,0xd68,0xd68,0xd68,0xd68,0xd68,0xd68,0xd68,0xc3,0xd68,0xd68,0xd68,";
"    0xd68,0xd68,0xd68,0xd68,0xd68,0xd68,0xd68,0xd68,0xd68,0xd68,0xd68,0xd68,0xd68,0xd68,0xd68,0xd68,";
"    0xd68,0xd68,0xd68,0xc3,0xd68,0xd68,0xd68,0xd68,0xd68,0xd68,0xd68,0xd68,0xd68,0xd68,0xd68,0xd68,";
"    0xd68,0xd68,0xd68,0xd68,0xd68,0xd68,0xd68,0xc3,0xd68,0xd68,0xc3,0xd68,0xd68,0xd68,0xd68,0xd68,";
"    0xd68,0xd68,0xd68,0xd68,0xd68,0xd68,0xd68,0xd68,0xd68,0xd68,0xc3,0xc3,0xd68,0xd68,0xd68,0xd68,";
"    0xd68,0xd68,0xd68,0xd68,0xd68,0xd68,0xd68,0xd68,0xd68,0xd68,0xc3,0xc3,0xc3,0xc3,0xc3,0xc3,";
"    0xc3,0xc3,0xc3,0xc3,0xc3,0xc3,0xc3,0xc3,0xc3,0xc3,0xc3,0xc3,0xc3,0xc3,0xc3,0xc3,";
"    0xc3,0xc3,0xc3,0xc3,0xc3,0xc3,0xc3,0xc3,0xc3,0xc3,0xc3,0xc3,0xd6b,0xd6b,0xd6b,0xd6b,";
"    0xd6b,0xd6b,0xd6b,0xd6b,0xd6b,0xd6b,0xd6b,0xd6b,0xd6b,0xd6b,0xd6b,0xd6b,0xd6b,0xd6b,0xd6b,0xd6b,";
"    0xd6b,0xd6b,0xd6b,0xd6b,0xd6b,0xd6b,0xd6b,0xc6,0xc6,0xc6,0xc6,0xc6,0xdad,0xdad,0xdad,0xc9,";
"    0xc9,0xc9,0xc9,0xda7,0xda7,0xda7,0xda7,0xda7,0xda7,0xda7,0xda7,0xda7,0xda7,0xda7,0xda7,0xda7,";
"    0xda7,0xda7,0xda7,0xda7,0xda7,0xda7,0xda7,0xda7,0xda7,0xda7,0xda7,0xda7,0xc9,0xc9,0xc9,0xdaa,";
"    0xdaa,0xdaa,0xdaa,0xdaa,0xdaa,0xdaa,0xdaa,0xdaa,0xd71,0xd71,0xd71,0xd71,0xd71,0xd71,0xd71,0xd71,";
"    0xd71,0xd71,0xd71,0xd71,0xd71,0xd71,0xd71,0xd71,0xd71,0xd71,0xd71,0xd71,0xd71,0xd71,0xd71,0xd71,";
"    0xd71,0xd71,0xd71,0xd71,0xd71,0xd71,0xcc,0xd6e,0xd7a,0xd7a,0xd7a,0xd7a,0xd7a,0xd7a,0xd7a,0xd7a,";
"    0xd7a,0xd7a,0xd7a,0xd7a,0xd7a,0xd7a,0xd7a,0xd7a,0xd7a,0xd7a,0xd7a,0xd7a,0xd7a,0xd7a,0xd7a,0xd7a,";
"    0xd7a,0xd7a,0xd7a,0xd7a,0xd7a,0xd7a,0xcf,0xcf,0xd77,0xd77,0xd77,0xd77,0xd77,0xd77,0xd77,0xd77,";
"    0xd77,0xd77,0xcf,0xcf,0xcf,0xcf,0xcf,0xcf,0x187b,0x187b,0x187b,0x187b,0x187b,0x187b,0x187b,0x187b,";
"    0x187b,0x187b,0x187b,0x187b,0x187b,0x187b,0x187b,0x187b,0xd7d,0xd7d,0xd7d,0xd7d,0xd7d,0xd7d,0xd2,0xd2,";
"    0xd7d,0xd2,0xd7d,0xd7d,0xd7d,0xd7d,0xd7d,0xd7d,0xd7d,0xd7d,0xd7d,0xd7d,0xd7d,0xd7d,0xd7d,0xd7d,";
"    0xd7d,0xd7d,0xd7d,0xd7d,0xd7d,0xd7d,0xd7d,0xd7d,0xd7d,0xd7d,0xd2,0xd7d,0xd7d,0xd2,0xd2,0xd2,";
"    0xd7d,0xd2,0xd2,0xd7d,0xd80,0xd80,0xd80,0xd80,0xd80,0xd80,0xd80,0xd80,0xd80,0xd80,0xd80,0xd80,";
"    0xd80,0xd80,0xd80,0xd80,0xd80,0xd80,0xd80,0xd80,0xd80,0xd80,0xd80,0xd5,0xd5,0xd5,0xd5,0xd5,";
"    0xd5,0xd5,0xd5,0xd5,0xe31,0xe31,0xe31,0xe31,0xe31,0xe31,0xe31,0xe31,0xe31,0xe31,0xe31,0x153f,";
"    0x153f,0x17f1,0x17f1,0xdb,0x1119,0x1119,0x1119,0x1119,0x1119,0x1119,0x1119,0x1119,0x1119,0x1119,0x1119,0x1119,";
"    0x1acd,0x132,0x132,0x132,0xe43,0xe43,0xe43,0xe43,0xe43,0xe43,0xe43,0xe43,0xe43,0xe43,0xe43,0xe43,";
"    0xe43,0xe43,0xe43,0xe43,0xe43,0xe43,0xe43,0xe43,0xe43,0xe43,0xe43,0xe3a,0xe3a,0xe40,0xe40,0xe3a,";
"    0xde,0xde,0xe3d,0xe3d,0x1149,0x1149,0x1149,0x1149,0xe1,0xe1,0xe1,0xe1,0xe1,0xe1,0xe1,0xe1,";
"    0xe1,0xe1,0xe1,0xe1,0xca2,0xca2,0xca2,0xca2,0xca2,0xca2,0xca2,0xca2,0xca2,0xca2,0xca2,0xca2,";
"    0xca2,0xca2,0xca2,0xca2,0x1038,0x1038,0x1038,0x1038,0x1038,0x1038,0x1038,0x1542,0x1542,0x1542,0x1542,0x1542,";
"    0x1542,0x1542,0x1542,0x1542,0x1542,0x1542,0x1542,0x1542,0x1542,0x1545,0x18bd,0x18bd,0x193e,0x18bd,0xe4,0x17f4,";
"    0x1377,0x118b,0xf3c,0xf3c,0xe55,0xe52,0xe55,0xe52,0xe52,0xe49,0xe49,0xe49,0xe49,0xe49,0xe49,0x1194,";
"    0x1191,0x1194,0x1191,0x118e,0x118e,0x118e,0x1434,0x1431,0xe7,0xe7,0xe7,0xe7,0xe7,0xe4f,0xe4c,0xe4c,";
"    0xe4c,0xe49,0xe4f,0xe4c,0xe58,0xe58,0xe58,0xe58,0xe58,0xe58,0xe58,0xe58,0xe58,0xe58,0xe58,0xe58,";
"    0xe58,0xe58,0xe58,0xe58,0xe58,0xe58,0xe58,0xe58,0xe58,0xe58,0xe58,0xea,0xea,0xea,0xea,0xea,";
"    0xea,0xea,0xea,0xea,0xe58,0xe58,0xe58,0xe58,0xe58,0xe58,0xe58,0xea,0xe58,0xe58,0xe58,0xe58,";
"    0xe58,0xe58,0xe58,0xea,0xe58,0xe58,0xe58,0xe58,0xe58,0xe58,0xe58,0xea,0xe58,0xe58,0xe58,0xe58,";
"    0xe58,0xe58,0xe58,0xea,0xe5e,0xe5e,0xe5e,0xe5e,0xe5e,0xe5e,0xe5e,0xe5e,0xe5e,0xe5e,0xe5e,0xe5e,";
"    0xe5e,0xe5e,0xe5e,0xe5e,0xe5b,0xe5b,0xe5b,0xe5b,0xe5b,0xe5b,0xe5b,0xe5b,0xe5b,0xe5b,0xed,0xed,";
"    0xed,0xed,0xed,0xed,0xe61,0xe61,0xe61,0xe61,0xe61,0xe61,0xf0,0x1437,0xf0,0xf0,0xf0,0xf0,";
"    0xf0,0x1437,0xf0,0xf0,0xeb8,0xeb8,0xeb8,0xeb8,0xeb8,0xeb8,0xeb8,0xeb8,0xeb8,0xeb8,0xeb8,0xeb8,";
"    0xeb8,0xeb8,0xeb8,0xeb8,0xe67,0xe67,0xe67,0xe67,0xe67,0xe67,0xe67,0xe67,0xe67,0xe67,0xe67,0xe67,";
"    0xe67,0xe67,0xe67,0xf3,0xe64,0xe64,0xe64,0xe64,0xe64,0xe64,0xe64,0xe64,0xe64,0xe64,0xe64,0xe64,";
"    0xe64,0xe64,0xe64,0xe64,0xe64,0xe64,0xe64,0xe64,0xe64,0xe64,0xe64,0xe64,0xe64,0xe64,0xe64,0xe64,";
"    0xe64,0xe64,0xe64,0xf3,0xe79,0xe6d,0xe6d,0xe6d,0xf6,0xe6d,0xe6d,0xf6,0xf6,0xf6,0xf6,0xf6,";
"    0xe6d,0xe6d,0xe6d,0xe6d,0xe79,0xe79,0xe79,0xe79,0xf6,0xe79,0xe79,0xe79,0xf6,0xe79,0xe79,0xe79,";
"    0xe79,0xe79,0xe79,0xe79,0xe79,0xe79,0xe79,0xe79,0xe79,0xe79,0xe79,0xe79,0xe79,0xe79,0xe79,0xe79,";
"    0xe79,0xe79,0xe79,0xe79,0x195c,0x195c,0xf6,0xf6,0xe6a,0xe6a,0xe6a,0xf6,0xf6,0xf6,0xf6,0xe70,";
"    0xe73,0xe73,0xe73,0xe73,0xe73,0xe73,0xe73,0xe73,0x1959,0xf6,0xf6,0xf6,0xf6,0xf6,0xf6,0xf6,";
"    0xe76,0xe76,0xe76,0xe76,0xe76,0xe76,0xe7c,0xe7c,0xe73,0xf6,0xf6,0xf6,0xf6,0xf6,0xf6,0xf6,";
"    0xe88,0xe88,0xe88,0xe88,0xe88,0xe88,0xe88,0xe88,0xe88,0xe88,0x119a,0x119a,0xf9,0xf9,0xf9,0xf9,";
"    0xe88,0xe88,0xe88,0xe88,0xe88,0xe8b,0xe8b,0xe8b,0xe88,0xe88,0xe8b,0xe88,0xe88,0xe88,0xe88,0xe88,";
"    0xe88,0xe88,0xe88,0xe88,0xe88,0xe88,0xf9,0xf9,0xf9,0xf9,0xf9,0xf9,0xe85,0xe85,0xe85,0xe85,";
"    0xe85,0xe85,0xe85,0xe85,0xe85,0xe85,0x1197,0xf9,0xf9,0xf9,0xe82,0xe82,0xe91,0xe91,0xe91,0xe91,";
"    0xfc,0xfc,0xfc,0xfc,0xe91,0xe91,0xe91,0xe91,0xe91,0xe91,0xe91,0xe91,0xe8e,0xe91,0xe91,0xe91,";
"    0xe91,0xe91,0xfc,0xfc,0xfc,0xfc,0xfc,0xfc,0xfc,0xfc,0xfc,0xfc,0x154e,0x1554,0x1551,0x189c,";
"    0x17f7,0x18c0,0x18c0,0x18c0,0x18c0,0x18c0,0x1962,0x195f,0x1965,0x195f,0x1965,0x1a25,0x1ac1,0x1ac1,0x1ac1,0xff,";
"    0xff,0xff,0xff,0xff,0xff,0xff,0xff,0xff,0xff,0xff,0xff,0xff,0xff,0xff,0xff,0xff,";
"    0xff,0xff,0xff,0xff,0xff,0xff,0xff,0xff,0xff,0xff,0xff,0xff,0xff,0xff,0xff,0xff,";
"    0xeb5,0xeb5,0xeb5,0xeb2,0xeb2,0xea9,0xea9,0xeb2,0xeaf,0xeaf,0xeaf,0xeaf,0x1ac4,0x102,0x102,0x102,";
"    0x1314,0x1314,0x1314,0x1317,0x1317,0x1317,0x130e,0x130e,0x1311,0x130e,0x156,0x156,0x156,0x156,0x156,0x156,";
"    0xeb8,0xeb8,0xeb8,0xeb8,0xeb8,0xeb8,0x1443,0x1443,0x105,0x105,0x105,0x105,0x105,0x105,0x105,0xebb,";
"    0x137d,0x105,0x105,0x105,0x105,0x105,0x105,0x105,0x105,0x105,0x105,0x105,0x105,0x105,0x105,0x137a,";
"    0xc72,0xc72,0xc72,0xc72,0xc72,0xc72,0xc72,0xc72,0xc72,0xc72,0xc72,0xc72,0xc72,0xc72,0xc72,0xc75,";
"    0xee8,0xed9,0xed3,0xee5,0xee2,0xedc,0xedc,0xeeb,0xed6,0xedf,0x108,0x108,0x108,0x108,0x108,0x108,";
"    0xf6f,0xf6f,0xf5a,0xf6f,0xf72,0xf75,0xf75,0xf75,0xf75,0xf75,0xf75,0xf75,0x10e,0x10e,0x10e,0x10e,";
"    0xf69,0xf69,0xf69,0xf69,0xf69,0xf69,0xf69,0xf69,0xf69,0xf69,0xf7b,0xf7b,0xf60,0xf66,0xf7b,0xf7b,";
"    0xf63,0xf60,0xf60,0xf60,0xf60,0xf60,0xf60,0xf60,0xf60,0xf60,0xf60,0xf5d,0xf5d,0xf5d,0xf5d,0xf5d,";
"    0xf5d,0xf5d,0xf5d,0xf5d,0xf60,0xf60,0xf60,0xf60,0xf60,0xf60,0xf60,0xf60,0xf60,0x10e,0x10e,0x10e,";
"    0x111,0x111,0x1a2b,0x1a28,0x1a2b,0x1a2b,0x1a2b,0x1aca,0x1ac7,0x1aca,0x1ac7,0x111,0x111,0x111,0x111,0x111,";
"    0x111,0x111,0x111,0x111,0x111,0x111,0x111,0x111,0x111,0x111,0x111,0x111,0x111,0x111,0x111,0x111,";
"    0x111,0x1aca,0x1ac7,0x155d,0x144c,0x144c,0x1380,0x1074,0x1074,0x1074,0x1074,0x1074,0xf8a,0xf8a,0xf8a,0xf8a,";
"    0xf8a,0xf8a,0xf8a,0xf8a,0xf8a,0xf8a,0xf8a,0xf8a,0xf8a,0xf8a,0xf8a,0xf8a,0xf8a,0xf8a,0xf8a,0xf8a,";
"    0xf87,0xf87,0xf8d,0xf8d,0x114,0x114,0x114,0x114,0x114,0x114,0x114,0x114,0xf96,0xf96,0xf96,0xf96,";
"    0xf96,0xf96,0xf96,0xf96,0xf96,0xf96,0xf96,0xf96,0xf96,0xf96,0xf96,0xf96,0xf96,0xf96,0xf96,0xf96,";
"    0xf96,0xf96,0xf90,0xf90,0xf90,0xf90,0x11a3,0x11a3,0x117,0x117,0x117,0xf93,0x1563,0x1563,0x1563,0x1563,";
"    0x1563,0x1563,0x1563,0x1563,0x1563,0x1563,0x1563,0x1563,0x1563,0x1563,0x1563,0x1563,0x1563,0x1563,0x1563,0x1563,";
"    0x1563,0x1563,0x1563,0x1563,0x1563,0x174c,0x11a,0x11a,0x11a,0x11a,0x11a,0x11a,0x11a,0x11a,0x11a,0x11a,";
"    0x11a,0x11a,0x11a,0x11a,0x11a,0x11a,0x11a,0x11a,0x11a,0x11a,0x11a,0x11a,0x11a,0x11a,0x11a,0x11a,";
"    0x11a,0x11a,0x11a,0x11a,0x11a,0x11a,0x11a,0x11a,0xf9f,0xf9f,0xf9f,0x1569,0x1569,0x1569,0x1569,0x1569,";
"    0x1569,0x1569,0x1569,0x1569,0x1569,0x1569,0x1569,0x11d,0xf9c,0xf9c,0xf9c,0xf9c,0x1566,0x11d,0x11d,0x11d,";
"    0x11d,0x11d,0x11d,0x11d,0x11d,0x11d,0x11d,0x11d,0xfa2,0xfa2,0xfa2,0xfa2,0xfa2,0xfa2,0xfa2,0xfa2,";
"    0xfa2,0xfa2,0xfa2,0xfa2,0xfa2,0xfa2,0xfa2,0xfa2,0xfa2,0xfa2,0x1974,0x1974,0x1974,0x1974,0x1974,0x1974,";
"    0x1974,0x120,0x120,0x120,0x120,0x120,0x120,0x120,0x109b,0x109b,0x109b,0x109b,0x1098,0x1098,0x1098,0x1098,";
"    0x1098,0x1098,0x1098,0x1098,0x1089,0x1089,0x1089,0x1089,0x1089,0x1089,0x1089,0x1089,0x1098,0x1098,0x108f,0x108c,";
"    0x123,0x123,0x123,0x109e,0x109e,0x1092,0x1092,0x1092,0x1095,0x1095,0x1095,0x1095,0x1095,0x1095,0x1095,0x1095,";
"    0x1095,0x1095,0x123,0x123,0x123,0x109b,0x109b,0x109b,0x10a1,0x10a1,0x10a1,0x10a1,0x10a1,0x10a1,0x10a1,0x10a1,";
"    0x10a1,0x10a1,0x10a4,0x10a4,0x10a4,0x10a4,0x10a4,0x10a4,0x10b6,0x10b6,0x10b6,0x10b6,0x10b6,0x10b6,0x10b6,0x10b6,";
"    0x10b6,0x10b6,0x10b9,0x10b9,0x126,0x126,0x126,0x126,0x126,0x126,0x126,0x126,0x126,0x126,0x126,0x126,";
"    0x126,0x126,0x126,0x126,0x126,0x126,0x126,0x126,0x10e0,0x10e0,0x10e0,0x10e0,0x10da,0x17fd,0x129,0x129,";
"    0x129,0x129,0x129,0x129,0x129,0x129,0x10e6,0x10e6,0x10dd,0x10dd,0x10dd,0x10dd,0x10dd,0x10dd,0x10dd,0x10dd,";
"    0x10dd,0x10dd,0x129,0x129,0x129,0x129,0x129,0x129,0x1104,0x1104,0x1104,0x1104,0x1104,0x1104,0x1104,0x10f8,";
"    0x10f8,0x10f8,0x10f8,0x10f8,0x10f8,0x10f8,0x10f8,0x10f8,0x10f8,0x10f8,0x10fe,0x1101,0x12c,0x12c,0x12c,0x12c,";
"    0x12c,0x12c,0x12c,0x12c,0x12c,0x12c,0x12c,0x10fb,0x1113,0x1113,0x1113,0x1113,0x1113,0x1113,0x1113,0x1113,";
"    0x1113,0x1107,0x1107,0x1107,0x1107,0x1107,0x1107,0x1110,0x1110,0x1107,0x1107,0x1110,0x1110,0x1107,0x1107,0x12f,";
"    0x12f,0x12f,0x12f,0x12f,0x12f,0x12f,0x12f,0x12f,0x1113,0x1113,0x1113,0x1107,0x1113,0x1113,0x1113,0x1113,";
"    0x1113,0x1113,0x1113,0x1113,0x1107,0x1110,0x12f,0x12f,0x110d,0x110d,0x110d,0x110d,0x110d,0x110d,0x110d,0x110d,";
"    0x110d,0x110d,0x12f,0x12f,0x110a,0x1116,0x1116,0x1116,0x1575,0x132,0x132,0x132,0x132,0x132,0x132,0x132,";
"    0x132,0x132,0x132,0x132,0x132,0x132,0x132,0x132,0x132,0x132,0x132,0x132,0x132,0x132,0x132,0x132,";
"    0x132,0x132,0x132,0x132,0x132,0x132,0x132,0x132,0x111c,0x111c,0x111c,0x111c,0x111c,0x111c,0x111c,0x111c,";
"    0x111c,0x111c,0x111c,0x111c,0x111c,0x111c,0x111c,0x111c,0x111c,0x111c,0x111c,0x111c,0x111c,0x111c,0x111c,0x111c,";
"    0x111c,0x111c,0x111c,0x111c,0x111c,0x111f,0x135,0x135,0x1122,0x1122,0x1122,0x1122,0x1122,0x1122,0x1122,0x1122,";
"    0x1122,0x1122,0x1122,0x1122,0x1122,0x1122,0x1122,0x1122,0x1122,0x1122,0x1122,0x1122,0x1122,0x1122,0x1122,0x1122,";
"    0x1122,0x1122,0x1122,0x1122,0x1122,0x138,0x138,0x138,0x1125,0x1125,0x1125,0x1125,0x1125,0x1125,0x1125,0x1125,";
"    0x1125,0x1125,0x1125,0x1125,0x1125,0x1125,0x1125,0x1125,0x1125,0x13b,0x13b,0x13b,0x13b,0x13b,0x13b,0x13b,";
"    0x13b,0x13b,0x13b,0x13b,0x13b,0x13b,0x13b,0x13b,0x112b,0x112b,0x112b,0x112b,0x112b,0x112b,0x112b,0x112b,";
"    0x112b,0x112b,0x112b,0x112b,0x112b,0x112b,0x112b,0x112b,0x112b,0x112b,0x112b,0x112b,0x112b,0x112b,0x112b,0x112b,";
"    0x112b,0x112b,0x13e,0x13e,0x13e,0x13e,0x13e,0x1128,0x112e,0x112e,0x112e,0x112e,0x112e,0x112e,0x112e,0x112e,";
"    0x112e,0x112e,0x112e,0x112e,0x141,0x141,0x141,0x141,0x1131,0x1131,0x1131,0x1131,0x1131,0x1131,0x1131,0x1131,";
"    0x1131,0x1131,0x1131,0x1131,0x1131,0x1131,0x1131,0x1131,0x1131,0x1131,0x1131,0x1131,0x144,0x144,0x144,0x144,";
"    0x144,0x144,0x144,0x144,0x144,0x144,0x144,0x144,0x11a9,0x11a9,0x11a9,0x11a9,0x11b2,0x11a9,0x11a9,0x11a9,";
"    0x11b2,0x11a9,0x11a9,0x11a9,0x11a9,0x11a6,0x147,0x147,0x11af,0x11af,0x11af,0x11af,0x11af,0x11af,0x11af,0x11b5,";
"    0x11af,0x11b5,0x11af,0x11af,0x11af,0x11b5,0x11b5,0x147,0x11b8,0x11b8,0x11b8,0x11b8,0x11b8,0x11b8,0x11b8,0x11b8,";
"    0x11b8,0x11b8,0x11b8,0x11b8,0x11b8,0x11b8,0x11b8,0x11b8,0x11b8,0x11b8,0x11b8,0x11b8,0x11b8,0x11b8,0x14a,0x14a,";
"    0x14a,0x14a,0x14a,0x14a,0x14a,0x14a,0x14a,0x14a,0x11d3,0x11d3,0x11d3,0x11d3,0x11d3,0x11d3,0x11d3,0x11d3,";
"    0x11d3,0x11d3,0x11d3,0x11d3,0x11d3,0x11d3,0x11d3,0x11d3,0x11d3,0x11d3,0x11d3,0x11d3,0x11d3,0x11d0,0x11bb,0x11d0,";
"    0x11bb,0x11bb,0x11bb,0x11bb,0x11bb,0x11bb,0x11bb,0x14d,0x11c4,0x11cd,0x11bb,0x11cd,0x11cd,0x11bb,0x11bb,0x11bb,";
"    0x11bb,0x11bb,0x11bb,0x11bb,0x11bb,0x11d0,0x11d0,0x11d0,0x11d0,0x11d0,0x11d0,0x11bb,0x11bb,0x11c1,0x11c1,0x11c1,";
"    0x11c1,0x11c1,0x11c1,0x11c1,0x11c1,0x14d,0x14d,0x11be,0x11ca,0x11ca,0x11ca,0x11ca,0x11ca,0x11ca,0x11ca,0x11ca,";
"    0x11ca,0x11ca,0x14d,0x14d,0x14d,0x14d,0x14d,0x14d,0x11ca,0x11ca,0x11ca,0x11ca,0x11ca,0x11ca,0x11ca,0x11ca,";
"    0x11ca,0x11ca,0x14d,0x14d,0x14d,0x14d,0x14d,0x14d,0x11c7,0x11c7,0x11c7,0x11c7,0x11c7,0x11c7,0x11c7,0x11d6,";
"    0x11d9,0x11d9,0x11d9,0x11d9,0x11c7,0x11c7,0x14d,0x14d,0x15c0,0x15c0,0x15c0,0x15c0,0x15c0,0x15c0,0x15c0,0x15c0,";
"    0x15c0,0x15c0,0x15c0,0x15c0,0x15c0,0x15c0,0x15bd,0x1adf,0x1329,0x1302,0x1320,0x1320,0x1320,0x1320,0x1320,0x1320,";
"    0x1320,0x1308,0x1305,0x12fc,0x12fc,0x1326,0x12fc,0x12fc,0x12fc,0x12fc,0x130b,0x14eb,0x14f1,0x14ee,0x14ee,0x193b,";
"    0x1716,0x1716,0x1aac,0x150,0x150,0x150,0x150,0x150,0x11ee,0x11ee,0x11ee,0x11ee,0x11ee,0x11ee,0x11ee,0x11ee,";
"    0x11ee,0x11ee,0x11ee,0x11ee,0x11ee,0x11ee,0x11ee,0x11ee,0x11e5,0x11e5,0x11e8,0x11f1,0x11eb,0x11eb,0x11eb,0x11f1,";
"    0x153,0x153,0x153,0x153,0x153,0x153,0x153,0x153,0x12ea,0x12ea,0x12ea,0x12ea,0x12ea,0x12ea,0x12ea,0x12ea,";
"    0x12ea,0x12ea,0x12ea,0x12ea,0x12ea,0x12ea,0x12ea,0x12ea,0x12ea,0x12ea,0x12ea,0x12ea,0x12ea,0x12ea,0x12ea,0x12ea,";
"    0x12ea,0x12ea,0x12ea,0x12ea,0x12ea,0x159,0x159,0x159,0x120f,0x1203,0x1203,0x1203,0x1203,0x1203,0x1203,0x1206,";
"    0x1215,0x1215,0x1203,0x1203,0x1203,0x1203,0x15c,0x131a,0x1209,0x1209,0x1209,0x1209,0x1209,0x1209,0x1209,0x1209,";
"    0x1209,0x1209,0x15c,0x15c,0x15c,0x15c,0x1203,0x1203,0x1233,0x1227,0x1233,0x15f,0x15f,0x15f,0x15f,0x15f,";
"    0x15f,0x15f,0x15f,0x15f,0x15f,0x15f,0x15f,0x15f,0x15f,0x15f,0x15f,0x15f,0x15f,0x15f,0x15f,0x15f,";
"    0x15f,0x15f,0x15f,0x1230,0x1230,0x1236,0x122a,0x122d,0x124b,0x124b,0x124b,0x1245,0x1245,0x123c,0x1245,0x1245,";
"    0x123c,0x1245,0x1245,0x124e,0x1248,0x123f,0x162,0x162,0x1242,0x1242,0x1242,0x1242,0x1242,0x1242,0x1242,0x1242,";
"    0x1242,0x1242,0x162,0x162,0x162,0x162,0x162,0x162,0x1254,0x1254,0x1254,0x1254,0x1254,0x1254,0x1254,0x165,";
"    0x165,0x165,0x165,0x1251,0x1251,0x1251,0x1251,0x1251,0x1251,0x1251,0x1251,0x1251,0x1251,0x1251,0x1251,0x1251,";
"    0x1251,0x1251,0x1251,0x1251,0x1251,0x1251,0x1251,0x1251,0x1251,0x1251,0x1251,0x1251,0x1251,0x1251,0x1251,0x1251,";
"    0x165,0x165,0x165,0x165,0x125d,0x125d,0x125d,0x125d,0x125d,0x125d,0x125d,0x125d,0x125d,0x125d,0x125d,0x125d,";
"    0x125d,0x125d,0x125d,0x125d,0x125d,0x125d,0x125d,0x125d,0x125d,0x125d,0x168,0x125a,0x1257,0x1257,0x1257,0x1257,";
"    0x1257,0x1257,0x1257,0x1257,0x126c,0x126c,0x126c,0x126c,0x126c,0x126c,0x126c,0x126c,0x126c,0x126c,0x126c,0x126c,";
"    0x126c,0x126c,0x126c,0x126c,0x126c,0x126c,0x126c,0x126c,0x126c,0x126c,0x16b,0x16b,0x16b,0x1266,0x1269,0x1269,";
"    0x1269,0x1269,0x1269,0x1269,0x1272,0x1272,0x1272,0x1272,0x1272,0x1272,0x1272,0x1272,0x1272,0x1272,0x1272,0x1272,";
"    0x1272,0x1272,0x1272,0x1272,0x1272,0x1272,0x1272,0x1272,0x1272,0x1272,0x16e,0x16e,0x126f,0x126f,0x126f,0x126f,";
"    0x126f,0x126f,0x126f,0x126f,0x1278,0x1278,0x1278,0x1278,0x1278,0x1278,0x1278,0x1278,0x1278,0x1278,0x1278,0x1278,";
"    0x1278,0x1278,0x1278,0x1278,0x1278,0x1278,0x1278,0x171,0x171,0x171,0x171,0x171,0x1275,0x1275,0x1275,0x1275,";
"    0x1275,0x1275,0x1275,0x1275,0x127e,0x127e,0x127e,0x127e,0x127e,0x127e,0x127e,0x127e,0x127e,0x127e,0x127e,0x127e,";
"    0x127e,0x127e,0x127e,0x127e,0x127e,0x127e,0x127e,0x127e,0x127e,0x127e,0x127e,0x127e,0x127e,0x127e,0x127e,0x127e,";
"    0x127e,0x127e,0x127e,0x177,0x1299,0x1299,0x17a,0x17a,0x17a,0x17a,0x17a,0x17a,0x17a,0x17a,0x17a,0x17a,";
"    0x17a,0x197d,0x17a,0x17a,0x14ca,0x14ca,0x14ca,0x14ca,0x14ca,0x14ca,0x14ca,0x14ca,0x14ca,0x14ca,0x14ca,0x14ca,";
"    0x14ca,0x14ca,0x14ca,0x14ca,0x129f,0x129f,0x129f,0x129f,0x129f,0x129f,0x129f,0x129f,0x129f,0x129f,0x129f,0x129f,";
"    0x129f,0x129f,0x129f,0x17d,0x1a4f,0x1a4f,0x1a4f,0x1a4f,0x1a4f,0x1a4f,0x1a4f,0x1a52,0x1a4c,0x279,0x279,0x279,";
"    0x279,0x279,0x279,0x279,0x187e,0x187e,0x187e,0x187e,0x187e,0x187e,0x187e,0x187e,0x187e,0x187e,0x187e,0x187e,";
"    0x187e,0x1ad0,0x180,0x180,0x180,0x180,0x180,0x180,0x180,0x180,0x180,0x180,0x180,0x180,0x180,0x180,";
"    0x180,0x180,0x180,0x180,0x180,0x180,0x180,0x180,0x180,0x180,0x180,0x180,0x180,0x180,0x180,0x180,";
"    0x180,0x180,0x180,0x180,0x180,0x180,0x138c,0x138c,0x138c,0x138c,0x138c,0x138c,0x138c,0x138c,0x138c,0x138c,";
"    0x138c,0x138c,0x138c,0x138c,0x138c,0x138c,0x138c,0x138c,0x138c,0x138c,0x138c,0x138c,0x138c,0x138c,0x138c,0x138c,";
"    0x12f6,0x13f5,0x13f2,0x183,0x183,0x183,0x183,0x183,0x183,0x183,0x183,0x183,0x183,0x183,0x183,0x183,";
"    0x12f0,0x12f0,0x12f0,0x12f0,0x12f0,0x12f0,0x12f0,0x12f0,0x12f0,0x12f0,0x12f3,0x12f0,0x12f0,0x12f0,0x12f0,0x12f0,";
"    0x12f0,0x12f0,0x12f0,0x12f0,0x12f0,0x12f0,0x12f0,0x12f0,0x12f0,0x12f0,0x12f0,0x12f3,0x12f0,0x12f0,0x13f5,0x13f5,";
"    0x13f5,0x13f5,0x13f5,0x13f2,0x13f5,0x13f5,0x13f5,0x1881,0x183,0x183,0x183,0x183,0x12ed,0x12ed,0x12ed,0x12ed,";
"    0x12ed,0x12ed,0x12ed,0x12ed,0x12ed,0x183,0x183,0x183,0x183,0x183,0x183,0x183,0x1419,0x1419,0x183,0x183,";
"    0x183,0x183,0x183,0x183,0x183,0x183,0x183,0x183,0x183,0x183,0x183,0x183,0x1920,0x1920,0x1920,0x1920,";
"    0x1920,0x1920,0x183,0x183,0x183,0x183,0x183,0x183,0x183,0x183,0x183,0x183,0x183,0x183,0x183,0x183,";
"    0x183,0x183,0x183,0x183,0x183,0x183,0x183,0x183,0x183,0x183,0x183,0x183,0x183,0x183,0x183,0x183,";
"    0x183,0x183,0x183,0x183,0x1395,0x1395,0x1395,0x1395,0x1395,0x1395,0x1395,0x1395,0x1395,0x1395,0x1395,0x1395,";
"    0x1395,0x1395,0x1395,0x1395,0x1395,0x1395,0x1395,0x1395,0x1395,0x1395,0x1395,0x1395,0x1395,0x138f,0x138f,0x138f,";
"    0x186,0x186,0x1392,0x186,0x13a7,0x13a7,0x13a7,0x13a7,0x13a7,0x13a7,0x1398,0x13a1,0x139b,0x139b,0x13a1,0x13a1,";
"    0x13a1,0x139b,0x13a1,0x139b,0x139b,0x139b,0x13a4,0x13a4,0x189,0x189,0x189,0x189,0x189,0x189,0x189,0x189,";
"    0x139e,0x139e,0x139e,0x139e,0x18c,0x13aa,0x13aa,0x13aa,0x13aa,0x13aa,0x13aa,0x18c,0x18c,0x13aa,0x13aa,0x13aa,";
"    0x13aa,0x13aa,0x13aa,0x18c,0x18c,0x13aa,0x13aa,0x13aa,0x13aa,0x13aa,0x13aa,0x18c,0x18c,0x18c,0x18c,0x18c,";
"    0x18c,0x18c,0x18c,0x18c,0x13aa,0x13aa,0x13aa,0x13aa,0x13aa,0x13aa,0x13aa,0x18c,0x13aa,0x13aa,0x13aa,0x13aa,";
"    0x13aa,0x13aa,0x13aa,0x18c,0x161d,0x161d,0x161d,0x161d,0x161d,0x161d,0x161d,0x161d,0x161d,0x161d,0x161d,0x161d,";
"    0x161d,0x161d,0x161d,0x161d,0x13ad,0x13ad,0x13ad,0x13ad,0x13ad,0x13ad,0x13b0,0x13c2,0x13c2,0x13b6,0x13b6,0x13b6,";
"    0x13b6,0x13b6,0x18f,0x18f,0x18f,0x18f,0x13b3,0x13b3,0x13b3,0x13b3,0x13b3,0x13b3,0x13b3,0x13b3,0x13b3,0x13b3,";
"    0x13b3,0x13b3,0x13b3,0x13b3,0x13b3,0x13b3,0x13b9,0x13b9,0x13b9,0x13b9,0x13b9,0x13b9,0x13b9,0x13b9,0x13b9,0x13b9,";
"    0x18f,0x18f,0x18f,0x18f,0x18f,0x18f,0x18f,0x18f,0x18f,0x18f,0x18f,0x18f,0x18f,0x18f,0x18f,0x1584,";
"    0x13c5,0x13c5,0x13c5,0x13c5,0x13c5,0x13c5,0x13c5,0x13c5,0x13c5,0x13c5,0x13c5,0x13c5,0x13c5,0x13c5,0x13c5,0x13c5,";
"    0x13c5,0x13c5,0x13c5,0x13c5,0x13c5,0x13c5,0x13c5,0x13c5,0x13c5,0x192,0x192,0x192,0x192,0x192,0x192,0x192,";
"    0x13c8,0x13c8,0x13c8,0x13c8,0x13c8,0x13c8,0x13c8,0x13c8,0x13c8,0x13c8,0x13c8,0x13c8,0x13c8,0x13c8,0x13c8,0x195,";
"    0x195,0x13c8,0x13c8,0x13c8,0x13c8,0x13c8,0x13c8,0x13c8,0x13c8,0x13c8,0x13c8,0x13c8,0x13c8,0x13c8,0x13c8,0x1587,";
"    0x195,0x13c8,0x13c8,0x13c8,0x13c8,0x13c8,0x13c8,0x13c8,0x13c8,0x13c8,0x13c8,0x13c8,0x13c8,0x13c8,0x13c8,0x13fe,";
"    0x195,0x13c8,0x13c8,0x13c8,0x13c8,0x13c8,0x13c8,0x13c8,0x13c8,0x13c8,0x13c8,0x13c8,0x13c8,0x13c8,0x13c8,0x13c8,";
"    0x1587,0x1587,0x1587,0x1587,0x1587,0x1587,0x1587,0x1587,0x1587,0x1587,0x1587,0x1587,0x1587,0x1587,0x1587,0x1587,";
"    0x1587,0x1587,0x1587,0x1587,0x1587,0x1587,0x195,0x195,0x195,0x195,0x195,0x195,0x195,0x195,0x195,0x195,";
"    0x1413,0x1410,0x1410,0x1410,0x1410,0x1410,0x159c,0x159c,0x159c,0x159c,0x159c,0x159f,0x170d,0x159f,0x159f,0x159f,";
"    0x17d9,0x188a,0x188a,0x18c3,0x18c3,0x1a8e,0x1b39,0x1b39,0x198,0x198,0x198,0x198,0x198,0x198,0x198,0x198,";
"    0x159f,0x159f,0x159f,0x159f,0x159f,0x159f,0x159c,0x159c,0x159c,0x159f,0x159c,0x170a,0x170a,0x198,0x198,0x198,";
"    0x159f,0x159c,0x159c,0x159f,0x188a,0x188a,0x188a,0x1926,0x1926,0x1a07,0x1a8e,0x1b39,0x1b39,0x198,0x198,0x198,";
"    0x13cb,0x13cb,0x13cb,0x13cb,0x13cb,0x13cb,0x13cb,0x13cb,0x13cb,0x13cb,0x13cb,0x13cb,0x13cb,0x13cb,0x13cb,0x13cb,";
"    0x13cb,0x13cb,0x13cb,0x13cb,0x19b,0x19b,0x19b,0x19b,0x19b,0x19b,0x19b,0x19b,0x19b,0x19b,0x19b,0x19b,";
"    0x1467,0x15a5,0x1467,0x1467,0x1467,0x1467,0x1467,0x1467,0x1467,0x1467,0x1467,0x1467,0x1467,0x15a5,0x15a5,0x15a5,";
"    0x15a5,0x15a5,0x15a5,0x175e,0x175e,0x19e,0x1809,0x1809,0x1809,0x1809,0x1809,0x1809,0x1809,0x1809,0x1ad3,0x1ad3,";
"    0x1ad3,0x1ad3,0x1ad3,0x1ad3,0x1ad3,0x1ad3,0x1ad3,0x1ad3,0x19e,0x19e,0x19e,0x19e,0x19e,0x19e,0x19e,0x19e,";
"    0x19e,0x19e,0x19e,0x1983,0x1806,0x1806,0x1806,0x1806,0x1806,0x1806,0x1806,0x1806,0x1806,0x1806,0x1806,0x1806,";
"    0x146d,0x146d,0x146d,0x146d,0x1a1,0x146d,0x146d,0x146d,0x146d,0x146d,0x146d,0x146d,0x146d,0x146d,0x146d,0x146d,";
"    0x146d,0x146d,0x146d,0x146d,0x146d,0x146d,0x146d,0x146d,0x146d,0x146d,0x146d,0x146d,0x146d,0x146d,0x146d,0x146d,";
"    0x1a1,0x146d,0x146d,0x1a1,0x146d,0x1a1,0x1a1,0x146d,0x1a1,0x146d,0x146d,0x146d,0x146d,0x146d,0x146d,0x146d,";
"    0x146d,0x146d,0x146d,0x1a1,0x146d,0x146d,0x146d,0x146d,0x1a1,0x146d,0x1a1,0x146d,0x1a1,0x1a1,0x1a1,0x1a1,";
"    0x1a1,0x1a1,0x146d,0x1a1,0x1a1,0x1a1,0x1a1,0x146d,0x1a1,0x146d,0x1a1,0x146d,0x1a1,0x146d,0x146d,0x146d,";
"    0x1a1,0x146d,0x146d,0x1a1,0x146d,0x1a1,0x1a1,0x146d,0x1a1,0x146d,0x1a1,0x146d,0x1a1,0x146d,0x1a1,0x146d,";
"    0x1a1,0x146d,0x146d,0x1a1,0x146d,0x1a1,0x1a1,0x146d,0x146d,0x146d,0x146d,0x1a1,0x146d,0x146d,0x146d,0x146d,";
"    0x146d,0x146d,0x146d,0x1a1,0x146d,0x146d,0x146d,0x146d,0x1a1,0x146d,0x146d,0x146d,0x146d,0x1a1,0x146d,0x1a1,";
"    0x146d,0x146d,0x146d,0x146d,0x146d,0x146d,0x146d,0x146d,0x146d,0x146d,0x1a1,0x146d,0x146d,0x146d,0x146d,0x146d,";
"    0x146d,0x146d,0x146d,0x146d,0x146d,0x146d,0x146d,0x146d,0x146d,0x146d,0x146d,0x146d,0x1a1,0x1a1,0x1a1,0x1a1,";
"    0x1a1,0x146d,0x146d,0x146d,0x1a1,0x146d,0x146d,0x146d,0x146d,0x146d,0x1a1,0x146d,0x146d,0x146d,0x146d,0x146d,";
"    0x146d,0x146d,0x146d,0x146d,0x146d,0x146d,0x146d,0x146d,0x146d,0x146d,0x146d,0x146d,0x1a1,0x1a1,0x1a1,0x1a1,";
"    0x1a1,0x1a1,0x1a1,0x1a1,0x1a1,0x1a1,0x1a1,0x1a1,0x1a1,0x1a1,0x1a1,0x1a1,0x1a1,0x1a1,0x1a1,0x1a1,";
"    0x1a1,0x1a1,0x1a1,0x1a1,0x1a1,0x1a1,0x1a1,0x1a1,0x1a1,0x1a1,0x1a1,0x1a1,0x146a,0x146a,0x1a1,0x1a1,";
"    0x1a1,0x1a1,0x1a1,0x1a1,0x1a1,0x1a1,0x1a1,0x1a1,0x1a1,0x1a1,0x1a1,0x1a1,0x1482,0x1482,0x1482,0x1482,";
"    0x1482,0x1482,0x1482,0x1470,0x1470,0x1470,0x1470,0x1470,0x147f,0x1470,0x1473,0x1473,0x1470,0x1470,0x1470,0x1476,";
"    0x1476,0x1a4,0x147c,0x147c,0x147c,0x147c,0x147c,0x147c,0x147c,0x147c,0x147c,0x147c,0x1479,0x1485,0x1485,0x1485,";
"    0x1989,0x1986,0x1986,0x1ad6,0x1a4,0x1a4,0x1a4,0x1a4,0x1a4,0x1a4,0x1a4,0x1a4,0x162f,0x162f,0x162f,0x162f,";
"    0x162f,0x162f,0x162f,0x162f,0x162f,0x162f,0x162f,0x162f,0x162f,0x162f,0x162f,0x162f,0x1491,0x1491,0x1491,0x1491,";
"    0x1491,0x1491,0x1491,0x1491,0x1491,0x1491,0x1491,0x148e,0x1488,0x1488,0x148e,0x148e,0x1497,0x1497,0x1491,0x1494,";
"    0x1494,0x148e,0x148b,0x1a7,0x1a7,0x1a7,0x1a7,0x1a7,0x1a7,0x1a7,0x1a7,0x1a7,0x149a,0x149a,0x149a,0x149a,";
"    0x149a,0x149a,0x149a,0x149a,0x149a,0x149a,0x149a,0x149a,0x149a,0x149a,0x149a,0x149a,0x149a,0x149a,0x149a,0x149a,";
"    0x149a,0x149a,0x149a,0x149a,0x1aa,0x1aa,0x1aa,0x1aa,0x1761,0x1761,0x149a,0x149a,0x1761,0x1761,0x1761,0x1761,";
"    0x1761,0x1761,0x1761,0x1761,0x1761,0x1761,0x1761,0x1761,0x1761,0x1761,0x1761,0x1761,0x1aa,0x1aa,0x1761,0x1761,";
"    0x1761,0x1761,0x1761,0x1761,0x1761,0x1761,0x1761,0x1761,0x1761,0x1761,0x1761,0x1761,0x14a6,0x14a6,0x14a6,0x14a6,";
"    0x14a6,0x1a37,0x1a37,0x1a37,0x1a37,0x1a37,0x1a37,0x1ad,0x1ad,0x1ad,0x1ad,0x1a31,0x14a6,0x14a3,0x14a3,0x14a3,";
"    0x14a3,0x14a3,0x14a3,0x14a3,0x14a3,0x14a3,0x14a3,0x14a3,0x14a3,0x14a3,0x14a3,0x14a3,0x1a34,0x1a34,0x1a34,0x1a34,";
"    0x1a34,0x1a34,0x1a34,0x1a34,0x1ad,0x1ad,0x1ad,0x1ad,0x1ad,0x1ad,0x1ad,0x14a0,0x14a0,0x14a0,0x14a0,0x14a9,";
"    0x14a9,0x14a9,0x14a9,0x14a9,0x14a9,0x14a9,0x14a9,0x14a9,0x14a9,0x14a9,0x14a9,0x14a9,0x14ca,0x14ca,0x14ca,0x14ca,";
"    0x14ca,0x14ca,0x14ca,0x14ca,0x14ca,0x1b0,0x1b0,0x1b0,0x1b0,0x1b0,0x1b0,0x1b0,0x14c7,0x14c7,0x14c7,0x14c7,";
"    0x14c7,0x14c7,0x14c7,0x14c7,0x14c7,0x14c7,0x1b0,0x1b0,0x1b0,0x1b0,0x1b0,0x1b0,0x14cd,0x14cd,0x14cd,0x14cd,";
"    0x14cd,0x14cd,0x14cd,0x14cd,0x1b3,0x1b3,0x1b3,0x1b3,0x1b3,0x1b3,0x1b3,0x1b3,0x1323,0x1320,0x1323,0x12ff,";
"    0x1320,0x1326,0x1326,0x1329,0x1326,0x1329,0x132c,0x1320,0x1329,0x1329,0x1320,0x1320,0x14df,0x14df,0x14df,0x14df,";
"    0x14df,0x14df,0x14df,0x14df,0x14df,0x14df,0x14df,0x14d0,0x14d9,0x14d0,0x14d9,0x14d9,0x14d0,0x14d0,0x14d0,0x14d0,";
"    0x14d0,0x14d0,0x14dc,0x14d3,0x1a3a,0x1b6,0x1b6,0x1b6,0x1b6,0x1b6,0x1b6,0x1b6,0x15b1,0x15b1,0x15b1,0x15b1,";
"    0x15b1,0x15b1,0x15b1,0x15b1,0x15b1,0x15b1,0x15b1,0x15b1,0x15b1,0x15b1,0x1b9,0x1b9,0x15ae,0x15ae,0x15ae,0x15ae,";
"    0x15ae,0x15b4,0x1b9,0x1b9,0x1b9,0x1b9,0x1b9,0x1b9,0x1b9,0x1b9,0x1b9,0x1b9,0x1719,0x1710,0x1710,0x1710,";
"    0x1710,0x1710,0x1710,0x1710,0x1710,0x1710,0x1710,0x1710,0x1710,0x1710,0x1710,0x1710,0x1710,0x1710,0x1710,0x1710,";
"    0x1710,0x1710,0x1710,0x1710,0x1710,0x1710,0x1710,0x1710,0x1bf,0x1bf,0x1bf,0x1bf,0x1adf,0x1c2,0x1c2,0x1c2,";
"    0x1c2,0x1c2,0x1c2,0x1c2,0x1c2,0x1c2,0x1c2,0x1c2,0x1c2,0x1c2,0x1c2,0x1c2,0x1c2,0x1c2,0x1c2,0x1c2,";
"    0x1c2,0x1c2,0x1c2,0x1c2,0x1c2,0x1c2,0x1c2,0x1c2,0x1c2,0x1c2,0x1c2,0x1c2,0x1c2,0x1c2,0x1c2,0x1c2,";
"    0x15cc,0x15cc,0x15cc,0x15cc,0x15cc,0x15cc,0x15cc,0x15cc,0x15cc,0x15cc,0x15cc,0x1c5,0x1c5,0x1c5,0x1c5,0x1c5,";
"    0x15cc,0x15cc,0x15cc,0x15cc,0x15cc,0x15cc,0x15cc,0x15cc,0x15cc,0x15cc,0x15cc,0x15cc,0x15cc,0x1c5,0x1c5,0x1c5,";
"    0x1c5,0x1c5,0x1c5,0x1c5,0x15cc,0x15cc,0x15cc,0x15cc,0x15cc,0x15cc,0x15cc,0x15cc,0x15cc,0x15cc,0x1c5,0x1c5,";
"    0x15c9,0x15c3,0x15c6,0x15cf,0x15d2,0x15d2,0x15d2,0x15d2,0x15d2,0x15d2,0x15d2,0x15d2,0x1c8,0x1c8,0x1c8,0x1c8,";
"    0x1c8,0x1c8,0x1c8,0x1c8,0x15ba,0x15ba,0x15ba,0x15ba,0x15ba,0x15ba,0x15ba,0x15ba,0x15ba,0x15ba,0x15ba,0x15ba,";
"    0x15ba,0x15ba,0x15ba,0x15ba,0x15d5,0x15d5,0x15d5,0x15d5,0x15d5,0x15d5,0x15d5,0x15d5,0x15d5,0x15d5,0x15d5,0x15d5,";
"    0x15d5,0x15d5,0x15d5,0x15d5,0x15d5,0x15d5,0x15d5,0x15d5,0x15d5,0x198c,0x198c,0x198c,0x198c,0x1cb,0x1cb,0x1cb,";
"    0x1cb,0x1cb,0x1cb,0x1cb,0x1a91,0x1a91,0x1a91,0x1a91,0x1a91,0x1a91,0x1a91,0x1a91,0x1a91,0x1a91,0x1a91,0x1a91,";
"    0x1cb,0x1cb,0x1cb,0x1cb,0x1cb,0x1cb,0x1cb,0x1cb,0x1cb,0x1cb,0x1cb,0x1cb,0x1cb,0x1cb,0x1cb,0x1cb,";
"    0x1cb,0x1cb,0x1cb,0x1cb,0x1776,0x171c,0x15de,0x1722,0x1ce,0x15e7,0x15e7,0x15e7,0x15e7,0x15e7,0x15e7,0x15e7,";
"    0x15e7,0x1ce,0x1ce,0x15e7,0x15e7,0x1ce,0x1ce,0x15e7,0x15e7,0x15e7,0x15e7,0x15e7,0x15e7,0x15e7,0x15e7,0x15e7,";
"    0x15e7,0x15e7,0x15e7,0x15e7,0x15e7,0x1ce,0x15e7,0x15e7,0x15e7,0x15e7,0x15e7,0x15e7,0x15e7,0x1ce,0x15e7,0x15e7,";
"    0x1ce,0x15e7,0x15e7,0x15e7,0x15e7,0x15e7,0x1ce,0x1a16,0x171f,0x15e7,0x15d8,0x15de,0x15d8,0x15de,0x15de,0x15de,";
"    0x15de,0x1ce,0x1ce,0x15de,0x15de,0x1ce,0x1ce,0x15e1,0x15e1,0x15e4,0x1ce,0x1ce,0x1779,0x1ce,0x1ce,0x1ce,";
"    0x1ce,0x1ce,0x1ce,0x15d8,0x1ce,0x1ce,0x1ce,0x1ce,0x1ce,0x15ea,0x15e7,0x15e7,0x15e7,0x15e7,0x15de,0x15de,";
"    0x1ce,0x1ce,0x15db,0x15db,0x15db,0x15db,0x15db,0x15db,0x15db,0x1ce,0x1ce,0x1ce,0x15db,0x15db,0x15db,0x15db,";
"    0x15db,0x1ce,0x1ce,0x1ce,0x1ce,0x1ce,0x1ce,0x1ce,0x1ce,0x1ce,0x1ce,0x1ce,0x15ff,0x15ff,0x15ff,0x15ff,";
"    0x15ff,0x15ff,0x15ff,0x15ff,0x15ff,0x15ff,0x15ff,0x15ff,0x15ff,0x15ff,0x15ff,0x15ff,0x15ff,0x15ff,0x1d1,0x15ff,";
"    0x15ff,0x15ff,0x15ff,0x15ff,0x15ff,0x15ff,0x15ff,0x15ff,0x15ff,0x15ff,0x15ff,0x15ff,0x15f9,0x15f9,0x15f9,0x15ed,";
"    0x15ed,0x15ed,0x15f9,0x15f9,0x15ed,0x15fc,0x15f0,0x15ed,0x1602,0x1602,0x15f6,0x1602,0x1602,0x15f3,0x180c,0x1d1,";
"    0x1611,0x1611,0x1611,0x1605,0x1605,0x1605,0x1605,0x1605,0x1605,0x1608,0x160b,0x1d4,0x1d4,0x1d4,0x1d4,0x1d4,";
"    0x160e,0x160e,0x160e,0x160e,0x160e,0x160e,0x160e,0x160e,0x160e,0x160e,0x1d4,0x1d4,0x1d4,0x1d4,0x1d4,0x1d4,";
"    0x177c,0x177c,0x177c,0x177c,0x161d,0x161a,0x1a3d,0x1a3d,0x1ae5,0x1ae8,0x1ae2,0x1ae2,0x1d7,0x1d7,0x1d7,0x1d7,";
"    0x17a6,0x17a6,0x17a6,0x17a6,0x17a6,0x17a6,0x17a6,0x17a6,0x17a6,0x17a6,0x17a6,0x17a6,0x17a6,0x17a6,0x17a6,0x17a6,";
"    0x1623,0x1623,0x1623,0x1623,0x1623,0x1623,0x1623,0x1623,0x1623,0x1623,0x1623,0x1623,0x1623,0x1623,0x1623,0x1623,";
"    0x1623,0x1623,0x1623,0x1623,0x1623,0x1623,0x1623,0x1da,0x1da,0x1da,0x1da,0x1da,0x1da,0x1da,0x1da,0x1da,";
"    0x1623,0x1623,0x1623,0x1623,0x1623,0x1623,0x1623,0x1623,0x1623,0x1623,0x1623,0x1623,0x1623,0x1623,0x1623,0x1623,";
"    0x1623,0x1623,0x1623,0x1623,0x1623,0x1623,0x1da,0x1da,0x1da,0x1da,0x1da,0x1da,0x1da,0x1da,0x1da,0x1da,";
"    0x1623,0x1623,0x1623,0x1623,0x1623,0x1623,0x1623,0x1623,0x1da,0x1da,0x1da,0x1da,0x1da,0x1da,0x1da,0x1da,";
"    0x1da,0x1da,0x1da,0x1da,0x1da,0x1da,0x1da,0x1da,0x1da,0x1da,0x1da,0x1da,0x1da,0x1da,0x1da,0x1da,";
"    0x162f,0x162f,0x162f,0x162f,0x162f,0x162f,0x162f,0x162f,0x162f,0x162f,0x162f,0x162f,0x162f,0x162f,0x162f,0x162f,";
"    0x162f,0x162f,0x162f,0x1626,0x1629,0x162c,0x162f,0x1dd,0x1dd,0x1dd,0x1dd,0x1dd,0x1dd,0x1dd,0x1dd,0x1dd,";
"    0x163e,0x163e,0x163e,0x163e,0x163e,0x1632,0x1632,0x1e0,0x1e0,0x1e0,0x1e0,0x1635,0x1635,0x1635,0x1635,0x1635,";
"    0x163b,0x163b,0x163b,0x163b,0x163b,0x163b,0x1638,0x1e0,0x1e0,0x1e0,0x1e0,0x1e0,0x1e0,0x1e0,0x1e0,0x1e0,";
"    0x1647,0x1647,0x1647,0x1647,0x1647,0x1e3,0x1e3,0x1644,0x1644,0x1644,0x1644,0x1644,0x1644,0x1644,0x1644,0x1644,";
"    0x1641,0x1641,0x1641,0x1641,0x1641,0x1641,0x1641,0x1e3,0x1e3,0x1e3,0x1e3,0x1e3,0x1e3,0x1e3,0x1e3,0x1e3,";
"    0x164a,0x165c,0x165c,0x1650,0x1659,0x1e6,0x1e6,0x1e6,0x1e6,0x1e6,0x1e6,0x1e6,0x1e6,0x1e6,0x1e6,0x1e6,";
"    0x1653,0x1653,0x1653,0x1653,0x1653,0x1653,0x1653,0x1653,0x1653,0x1653,0x1e6,0x1e6,0x1e6,0x1e6,0x1e6,0x1e6,";
"    0x1662,0x1662,0x1662,0x1662,0x1662,0x1662,0x1662,0x1662,0x1662,0x1662,0x1662,0x1662,0x1662,0x1662,0x1662,0x1662,";
"    0x1662,0x1662,0x1662,0x1662,0x1662,0x1662,0x1662,0x1662,0x1662,0x1662,0x1662,0x1662,0x1662,0x1662,0x1662,0x1e9,";
"    0x166e,0x166e,0x166e,0x166e,0x166e,0x1668,0x1671,0x166e,0x166e,0x166e,0x166e,0x166e,0x166e,0x166e,0x166e,0x166e,";
"    0x166b,0x166b,0x166b,0x166b,0x166b,0x166b,0x166b,0x166b,0x166b,0x166b,0x166e,0x166e,0x166e,0x166e,0x166e,0x1ec,";
"    0x1677,0x1677,0x1677,0x1677,0x1677,0x1677,0x1677,0x1677,0x1677,0x1677,0x1677,0x1677,0x1677,0x1677,0x1677,0x1677,";
"    0x1677,0x1677,0x1677,0x1677,0x1677,0x1677,0x1677,0x1677,0x1677,0x1677,0x1677,0x1677,0x1677,0x1677,0x1677,0x1ef,";
"    0x1683,0x1683,0x1683,0x1683,0x1683,0x1683,0x1683,0x1683,0x1683,0x1683,0x1683,0x1683,0x1683,0x1683,0x1683,0x1683,";
"    0x1683,0x1683,0x1683,0x1683,0x1683,0x1683,0x1680,0x1680,0x1680,0x1680,0x1680,0x1f2,0x1f2,0x1f2,0x1f2,0x1f2,";
"    0x169b,0x169b,0x169e,0x169e,0x16a1,0x1692,0x1f5,0x1f5,0x1f5,0x1f5,0x1f5,0x1f5,0x1f5,0x1f5,0x1f5,0x1f5,";
"    0x1698,0x1698,0x1698,0x1698,0x1698,0x1698,0x1698,0x1698,0x1698,0x1698,0x1f5,0x1692,0x1692,0x1692,0x1692,0x1692,";
"    0x1692,0x1692,0x1f5,0x169b,0x169b,0x169b,0x169b,0x169b,0x169b,0x169b,0x169b,0x169b,0x169b,0x169b,0x169b,0x169b,";
"    0x169b,0x169b,0x169b,0x169b,0x169b,0x169b,0x169b,0x169b,0x1f5,0x1f5,0x1f5,0x1f5,0x1f5,0x169b,0x169b,0x169b,";
"    0x16aa,0x16aa,0x16aa,0x16aa,0x16aa,0x16aa,0x16aa,0x16aa,0x16aa,0x16aa,0x16aa,0x16aa,0x16aa,0x16aa,0x16aa,0x16aa,";
"    0x16aa,0x16aa,0x16aa,0x16aa,0x16aa,0x16aa,0x16aa,0x16aa,0x16aa,0x1f8,0x1f8,0x1f8,0x1f8,0x1f8,0x1f8,0x1f8,";
"    0x16b3,0x16b3,0x16b3,0x16b3,0x16b3,0x16b3,0x16b3,0x16b3,0x16b3,0x16b3,0x16b3,0x16b3,0x16b3,0x16b3,0x16b3,0x16b3,";
"    0x16b3,0x16b3,0x1fb,0x1fb,0x1fb,0x1fb,0x1fb,0x1fb,0x1fb,0x16b0,0x16b0,0x16b0,0x16b0,0x1fb,0x1fb,0x1fb,";
"    0x16ce,0x16ce,0x16ce,0x16ce,0x16ce,0x16ce,0x16ce,0x16ce,0x16ce,0x16ce,0x16ce,0x16ce,0x16ce,0x16ce,0x16ce,0x16b6,";
"    0x16c8,0x16c8,0x16b6,0x16b6,0x16b6,0x16b6,0x201,0x201,0x16c8,0x16c8,0x16cb,0x16cb,0x16b6,0x16b6,0x16c8,0x16bc,";
"    0x16b9,0x16bf,0x16d1,0x16d1,0x16c2,0x16c2,0x16c5,0x16c5,0x16c5,0x16d1,0x1785,0x1785,0x1785,0x1785,0x1785,0x1785,";
"    0x1785,0x1785,0x1785,0x1785,0x1785,0x1785,0x1785,0x1785,0x1782,0x1782,0x1782,0x1782,0x177f,0x177f,0x201,0x201,";
"    0x201,0x201,0x201,0x201,0x201,0x201,0x201,0x201,0x201,0x201,0x201,0x201,0x201,0x201,0x201,0x201,";
"    0x201,0x201,0x201,0x201,0x201,0x201,0x201,0x201,0x201,0x201,0x201,0x201,0x201,0x201,0x201,0x201,";
"    0x204,0x16d4,0x16d4,0x16d4,0x16d4,0x16d4,0x16d4,0x16d4,0x16d4,0x16d4,0x16d4,0x16d4,0x16d4,0x16d4,0x16d4,0x16d4,";
"    0x16d4,0x16d4,0x16d4,0x16d4,0x16d4,0x204,0x204,0x204,0x204,0x204,0x204,0x204,0x204,0x204,0x204,0x204,";
"    0x16d7,0x16d7,0x16d7,0x16d7,0x16d7,0x16d7,0x16d7,0x16d7,0x16d7,0x16d7,0x16d7,0x16d7,0x207,0x207,0x207,0x207,";
"    0x16d7,0x16d7,0x16d7,0x16d7,0x16d7,0x16d7,0x16d7,0x16d7,0x16d7,0x16d7,0x16d7,0x16d7,0x16d7,0x16d7,0x16d7,0x16d7,";
"    0x207,0x207,0x207,0x207,0x207,0x207,0x207,0x207,0x16d7,0x16d7,0x16d7,0x16d7,0x16d7,0x16d7,0x16d7,0x16d7,";
"    0x16d7,0x16d7,0x207,0x207,0x207,0x207,0x207,0x207,0x16d7,0x16d7,0x16d7,0x16d7,0x16d7,0x16d7,0x16d7,0x16d7,";
"    0x207,0x207,0x207,0x207,0x207,0x207,0x207,0x207,0x16d7,0x16d7,0x16d7,0x16d7,0x16d7,0x16d7,0x16d7,0x16d7,";
"    0x16d7,0x16d7,0x16d7,0x16d7,0x16d7,0x16d7,0x16d7,0x16d7,0x16d7,0x16d7,0x207,0x207,0x1aeb,0x1aeb,0x207,0x207,";
"    0x207,0x207,0x207,0x207,0x207,0x207,0x207,0x207,0x207,0x207,0x207,0x207,0x207,0x207,0x207,0x207,";
"    0x207,0x207,0x207,0x207,0x207,0x207,0x207,0x207,0x207,0x207,0x207,0x207,0x207,0x207,0x207,0x207,";
"    0x16da,0x16e9,0x16e0,0x16dd,0x16ef,0x16ef,0x16e3,0x16ef,0x20a,0x20a,0x20a,0x20a,0x20a,0x20a,0x20a,0x20a,";
"    0x16e6,0x16e6,0x16e6,0x16e6,0x16e6,0x16e6,0x16e6,0x16e6,0x16e6,0x16e6,0x20a,0x20a,0x20a,0x20a,0x20a,0x20a,";
"    0x16f5,0x16f5,0x16f5,0x16f5,0x16f5,0x16f5,0x16f5,0x16f5,0x16f5,0x16f5,0x16f2,0x16f2,0x16f2,0x16f2,0x16f2,0x16f2,";
"    0x16f2,0x16f2,0x16f2,0x20d,0x20d,0x20d,0x20d,0x20d,0x20d,0x20d,0x20d,0x20d,0x20d,0x20d,0x20d,0x16fb,";
"    0x1797,0x1797,0x1797,0x1797,0x1797,0x1797,0x1797,0x1797,0x1797,0x1797,0x1797,0x1797,0x1797,0x1797,0x1797,0x1797,";
"    0x1797,0x1797,0x1797,0x1797,0x1797,0x1797,0x1797,0x1797,0x1797,0x1797,0x198f,0x210,0x210,0x1788,0x1788,0x1788,";
"    0x1794,0x1794,0x1788,0x1788,0x1788,0x1788,0x1794,0x1788,0x1788,0x1788,0x1788,0x178b,0x210,0x210,0x210,0x210,";
"    0x1791,0x1791,0x1791,0x1791,0x1791,0x1791,0x1791,0x1791,0x1791,0x1791,0x178e,0x178e,0x179a,0x179a,0x179a,0x178e,";
"    0x179d,0x179d,0x179d,0x179d,0x179d,0x179d,0x179d,0x213,0x213,0x213,0x213,0x213,0x213,0x213,0x213,0x213,";
"    0x213,0x213,0x213,0x213,0x213,0x213,0x213,0x213,0x213,0x213,0x213,0x213,0x213,0x213,0x213,0x213,";
"    0x213,0x213,0x213,0x213,0x213,0x213,0x213,0x213,0x17af,0x17af,0x17af,0x17af,0x17af,0x17af,0x17af,0x17af,";
"    0x17af,0x17af,0x17af,0x17af,0x17af,0x17af,0x17af,0x17af,0x17af,0x17af,0x17af,0x219,0x17af,0x17af,0x219,0x219,";
"    0x219,0x219,0x219,0x17ac,0x17ac,0x17ac,0x17ac,0x17ac,0x17b2,0x17b2,0x17b2,0x17b2,0x17b2,0x17b2,0x17b2,0x21c,";
"    0x17b2,0x21c,0x17b2,0x17b2,0x17b2,0x17b2,0x21c,0x17b2,0x17b2,0x17b2,0x17b2,0x17b2,0x17b2,0x17b2,0x17b2,0x17b2,";
"    0x17b2,0x17b2,0x17b2,0x17b2,0x17b2,0x17b2,0x21c,0x17b2,0x17b2,0x17b2,0x17b2,0x17b2,0x17b2,0x17b2,0x17b2,0x17b2,";
"    0x17b2,0x17b5,0x21c,0x21c,0x21c,0x21c,0x21c,0x21c,0x1614,0x1614,0x1614,0x1614,0x1614,0x1614,0x1614,0x1614,";
"    0x1614,0x1614,0x1614,0x1614,0x1614,0x1614,0x1614,0x1614,0x17be,0x17be,0x17be,0x17be,0x17be,0x17be,0x17be,0x17be,";
"    0x17be,0x17be,0x17be,0x17be,0x17be,0x17be,0x17be,0x17be,0x17be,0x17be,0x17be,0x21f,0x21f,0x21f,0x21f,0x21f,";
"    0x21f,0x21f,0x21f,0x21f,0x21f,0x21f,0x21f,0x21f,0x17bb,0x17bb,0x17bb,0x17bb,0x17bb,0x17bb,0x17bb,0x17bb,";
"    0x17bb,0x17bb,0x17bb,0x17bb,0x17bb,0x17bb,0x17bb,0x17bb,0x17bb,0x17bb,0x17bb,0x21f,0x21f,0x21f,0x21f,0x21f,";
"    0x21f,0x21f,0x17b8,0x17b8,0x17b8,0x17b8,0x17b8,0x17b8,0x1929,0x1929,0x1929,0x1929,0x1929,0x1929,0x1929,0x1929,";
"    0x1929,0x1929,0x1929,0x1929,0x1a0a,0x1a0a,0x1a0a,0x1a0a,0x1a0a,0x1a94,0x1b3c,0x1a0a,0x1a0a,0x1a0a,0x1a0a,0x1b3f,";
"    0x1b3c,0x222,0x1a0a,0x1a94,0x1a0a,0x1a0a,0x1a0a,0x1a0a,0x17df,0x1a0a,0x1a0a,0x1a94,0x1a94,0x1a94,0x1a94,0x1a94,";
"    0x1a94,0x1a94,0x1a94,0x1b3c,0x222,0x1a97,0x1a97,0x1a97,0x1929,0x192c,0x192c,0x192c,0x192c,0x192c,0x192c,0x192c,";
"    0x192c,0x192c,0x192c,0x192c,0x192c,0x192c,0x1929,0x1929,0x17c4,0x17c4,0x17c4,0x17c4,0x17c1,0x17c4,0x17c4,0x17c7,";
"    0x17ca,0x17c7,0x17c7,0x17c4,0x225,0x225,0x225,0x225,0x225,0x225,0x225,0x225,0x225,0x225,0x225,0x225,";
"    0x225,0x225,0x225,0x17c1,0x17c1,0x17c1,0x17c1,0x17c1,0x1821,0x1821,0x1821,0x1821,0x1818,0x1818,0x1818,0x1812,";
"    0x1815,0x1815,0x1815,0x1a40,0x228,0x228,0x228,0x228,0x181e,0x181e,0x181e,0x181e,0x181e,0x181e,0x181e,0x181e,";
"    0x181e,0x181e,0x228,0x228,0x228,0x228,0x181b,0x181b,0x183c,0x183c,0x183c,0x183c,0x183c,0x183c,0x183c,0x183c,";
"    0x183c,0x22b,0x183c,0x183c,0x183c,0x183c,0x183c,0x183c,0x183c,0x183c,0x183c,0x183c,0x183c,0x183c,0x183c,0x183c,";
"    0x183c,0x183c,0x183c,0x183c,0x183c,0x183c,0x183c,0x183c,0x183c,0x183c,0x183c,0x1839,0x1827,0x1827,0x1827,0x1827,";
"    0x1827,0x1827,0x1827,0x22b,0x1827,0x1827,0x1827,0x1827,0x1827,0x1827,0x1839,0x182a,0x183c,0x183f,0x183f,0x1833,";
"    0x1830,0x1830,0x22b,0x22b,0x22b,0x22b,0x22b,0x22b,0x22b,0x22b,0x22b,0x22b,0x1836,0x1836,0x1836,0x1836,";
"    0x1836,0x1836,0x1836,0x1836,0x1836,0x1836,0x182d,0x182d,0x182d,0x182d,0x182d,0x182d,0x182d,0x182d,0x182d,0x182d,";
"    0x182d,0x182d,0x182d,0x182d,0x182d,0x22b,0x22b,0x22b,0x184b,0x184e,0x1854,0x1854,0x1854,0x1854,0x1854,0x1854,";
"    0x1854,0x1854,0x1854,0x1854,0x1854,0x1854,0x1854,0x1854,0x1842,0x1842,0x1842,0x1842,0x1842,0x1842,0x1842,0x1842,";
"    0x1842,0x22e,0x22e,0x22e,0x22e,0x22e,0x22e,0x22e,0x19ad,0x19ad,0x19ad,0x19ad,0x19ad,0x19ad,0x19ad,0x19ad,";
"    0x19ad,0x19ad,0x19ad,0x19ad,0x19ad,0x19ad,0x19ad,0x19ad,0x1845,0x1845,0x1845,0x1845,0x1845,0x1845,0x1845,0x231,";
"    0x1845,0x1845,0x1845,0x1845,0x1845,0x1845,0x1845,0x1845,0x1845,0x1845,0x1845,0x1845,0x1845,0x1845,0x1845,0x1845,";
"    0x1845,0x231,0x231,0x1845,0x1845,0x1845,0x1845,0x1845,0x1893,0x192f,0x1a9a,0x1a9d,0x1b45,0x234,0x234,0x234,";
"    0x234,0x234,0x234,0x234,0x234,0x234,0x234,0x234,0x1b42,0x1b42,0x234,0x234,0x234,0x234,0x234,0x234,";
"    0x234,0x234,0x234,0x234,0x234,0x234,0x234,0x234,0x1854,0x1854,0x1854,0x1854,0x1854,0x1854,0x1854,0x1854,";
"    0x1854,0x1854,0x1854,0x1854,0x1854,0x1854,0x1854,0x1854,0x237,0x237,0x1848,0x1848,0x1848,0x1848,0x1848,0x1848,";
"    0x1848,0x1848,0x1848,0x1848,0x1848,0x1848,0x1848,0x1848,0x237,0x1851,0x1848,0x1848,0x1848,0x1848,0x1848,0x1848,";
"    0x1848,0x1851,0x1848,0x1848,0x1851,0x1848,0x1848,0x237,0x237,0x237,0x237,0x237,0x237,0x237,0x237,0x237,";
"    0x1857,0x1857,0x1857,0x1857,0x1857,0x1857,0x1857,0x1857,0x1857,0x1857,0x1857,0x1857,0x1857,0x23a,0x23a,0x23a,";
"    0x23a,0x23a,0x23a,0x23a,0x23a,0x23a,0x23a,0x23a,0x23a,0x23a,0x23a,0x23a,0x23a,0x23a,0x23a,0x23a,";
"    0x186f,0x186f,0x1860,0x185a,0x185a,0x186f,0x185d,0x1872,0x1872,0x1872,0x1872,0x1875,0x1875,0x1869,0x1866,0x1863,";
"    0x186c,0x186c,0x186c,0x186c,0x186c,0x186c,0x186c,0x186c,0x186c,0x186c,0x1aee,0x1869,0x23d,0x1863,0x1992,0x1a43,";
"    0x1af1,0x1af1,0x23d,0x23d,0x23d,0x23d,0x23d,0x23d,0x23d,0x23d,0x23d,0x23d,0x23d,0x23d,0x23d,0x23d,";
"    0x23d,0x23d,0x23d,0x23d,0x23d,0x23d,0x23d,0x23d,0x23d,0x23d,0x23d,0x23d,0x23d,0x23d,0x23d,0x23d,";
"    0x187b,0x187b,0x187b,0x187b,0x187b,0x187b,0x187b,0x187b,0x187b,0x187b,0x187b,0x187b,0x187b,0x187b,0x187b,0x187b,";
"    0x187b,0x187b,0x187b,0x187b,0x240,0x240,0x240,0x240,0x1878,0x1878,0x1878,0x1878,0x1878,0x1878,0x1878,0x1878,";
"    0x1878,0x1878,0x1878,0x1878,0x1878,0x1878,0x1878,0x1878,0x1878,0x1878,0x1878,0x1878,0x1878,0x1878,0x1878,0x1878,";
"    0x1878,0x1878,0x1878,0x1878,0x240,0x240,0x240,0x240,0x1896,0x1896,0x1896,0x1896,0x1896,0x1896,0x1896,0x1896,";
"    0x1896,0x1896,0x1896,0x1896,0x1896,0x1a13,0x1a13,0x1a13,0x1a13,0x1a13,0x1aa0,0x1aa0,0x1aa0,0x1aa0,0x1aa0,0x1aa0,";
"    0x243,0x243,0x243,0x243,0x243,0x243,0x243,0x243,0x1935,0x1935,0x1935,0x1935,0x1935,0x1935,0x1935,0x1935,";
"    0x1935,0x1935,0x1935,0x1935,0x1935,0x1935,0x1935,0x1935,0x1935,0x1935,0x1935,0x1935,0x1935,0x1935,0x1935,0x1935,";
"    0x1935,0x1935,0x1935,0x1935,0x1935,0x1935,0x1935,0x246,0x246,0x246,0x246,0x246,0x246,0x246,0x246,0x246,";
"    0x246,0x246,0x246,0x246,0x246,0x246,0x246,0x246,0x288,0x288,0x288,0x288,0x288,0x288,0x288,0x288,";
"    0x288,0x288,0x288,0x288,0x288,0x288,0x288,0x288,0x18d5,0x18d5,0x18d5,0x18d5,0x18d5,0x18d5,0x18d5,0x249,";
"    0x18d5,0x18d5,0x249,0x18d5,0x18d5,0x18d5,0x18d5,0x18d5,0x18d5,0x18d5,0x18d5,0x18d5,0x18d5,0x18d5,0x18d5,0x18d5,";
"    0x18d5,0x18d5,0x18d5,0x18d5,0x18d5,0x18d5,0x18d5,0x18d5,0x18d5,0x18c9,0x18c9,0x18c9,0x18c9,0x18c9,0x18c9,0x249,";
"    0x249,0x249,0x18c9,0x249,0x18c9,0x18c9,0x249,0x18c9,0x18c9,0x18c9,0x18cc,0x18c9,0x18cf,0x18cf,0x18d8,0x18c9,";
"    0x249,0x249,0x249,0x249,0x249,0x249,0x249,0x249,0x18d2,0x18d2,0x18d2,0x18d2,0x18d2,0x18d2,0x18d2,0x18d2,";
"    0x18d2,0x18d2,0x249,0x249,0x249,0x249,0x249,0x249,0x1938,0x1938,0x1938,0x1938,0x1938,0x1938,0x1938,0x1938,";
"    0x1938,0x1938,0x1938,0x1938,0x1938,0x1938,0x1938,0x1938,0x1938,0x1938,0x1938,0x1938,0x1938,0x1938,0x1938,0x1938,";
"    0x1938,0x1938,0x1938,0x1938,0x24c,0x24c,0x24c,0x24c,0x1905,0x1908,0x1917,0x1917,0x1908,0x190b,0x1905,0x1902,";
"    0x255,0x255,0x255,0x255,0x255,0x255,0x255,0x255,0x18f0,0x18db,0x18db,0x18db,0x18db,0x18db,0x18db,0x18ed,";
"    0x18ed,0x18db,0x18db,0x18db,0x18f0,0x18f0,0x18f0,0x18f0,0x1a49,0x1a49,0x1a49,0x1a49,0x1a49,0x1a49,0x1a49,0x1a49,";
"    0x1a49,0x1a49,0x1a49,0x1a49,0x1a49,0x1a49,0x1a49,0x1a49,0x1a49,0x1a49,0x1a49,0x1a49,0x258,0x258,0x258,0x258,";
"    0x258,0x258,0x258,0x258,0x258,0x258,0x258,0x258,0x1998,0x1998,0x1998,0x1998,0x1998,0x1998,0x1998,0x1998,";
"    0x1998,0x1998,0x1998,0x1998,0x1998,0x1998,0x258,0x258,0x1aa9,0x1aa9,0x1aa9,0x1aa9,0x1b4b,0x28b,0x28b,0x28b,";
"    0x1aa9,0x1aa9,0x1aa9,0x28b,0x28b,0x28b,0x28b,0x28b,0x19aa,0x19aa,0x19aa,0x19aa,0x19aa,0x19aa,0x19aa,0x19aa,";
"    0x19aa,0x19aa,0x19aa,0x19aa,0x19a7,0x19a7,0x19a7,0x199b,0x199b,0x199b,0x199b,0x199b,0x199b,0x199b,0x199b,0x199b,";
"    0x19a7,0x19a1,0x199e,0x19a4,0x25b,0x25b,0x25b,0x25b,0x19ad,0x19ad,0x19ad,0x19ad,0x19ad,0x19ad,0x19ad,0x19ad,";
"    0x19ad,0x19ad,0x19ad,0x19ad,0x19ad,0x19ad,0x19ad,0x19ad,0x19ad,0x19ad,0x19ad,0x19ad,0x19ad,0x19ad,0x19ad,0x19ad,";
"    0x19ad,0x19ad,0x19ad,0x25e,0x25e,0x19ad,0x19ad,0x19ad,0x19bc,0x19bc,0x19bc,0x19bc,0x19bc,0x19bc,0x261,0x19bc,";
"    0x19bc,0x261,0x19bc,0x19bc,0x19bc,0x19bc,0x19bc,0x19bc,0x19bc,0x19bc,0x19bc,0x19bc,0x19bc,0x19bc,0x19bc,0x19bc,";
"    0x19bc,0x19bc,0x19bc,0x19bc,0x19bc,0x19bc,0x19bc,0x19bc,0x19bc,0x19bc,0x19b9,0x19b9,0x19b9,0x19b9,0x19b9,0x261,";
"    0x19b0,0x19b0,0x261,0x19b9,0x19b9,0x19b0,0x19b9,0x19b3,0x19bc,0x261,0x261,0x261,0x261,0x261,0x261,0x261,";
"    0x19c5,0x19c5,0x19c8,0x19c8,0x19bf,0x19bf,0x19bf,0x19bf,0x264,0x264,0x264,0x264,0x264,0x264,0x264,0x264,";
"    0x19c2,0x19c2,0x19c2,0x19c2,0x19c2,0x19c2,0x19c2,0x19c2,0x19c2,0x19c2,0x264,0x264,0x264,0x264,0x264,0x264,";
"    0x19cb,0x19cb,0x19cb,0x19cb,0x19cb,0x19cb,0x19cb,0x19cb,0x19cb,0x19cb,0x19cb,0x19cb,0x19ce,0x19cb,0x19cb,0x19cb,";
"    0x19ce,0x19cb,0x19cb,0x19cb,0x19cb,0x267,0x267,0x267,0x267,0x267,0x267,0x267,0x267,0x267,0x267,0x267,";
"    0x19d7,0x19d7,0x19d7,0x19d7,0x19d7,0x19d7,0x19d7,0x19d7,0x19d7,0x19d7,0x19d7,0x19d7,0x19d7,0x19d7,0x19d7,0x19d7,";
"    0x19d7,0x19d7,0x19d7,0x19d1,0x19d1,0x19d4,0x19d4,0x19da,0x19da,0x26a,0x26a,0x26a,0x26a,0x26a,0x26a,0x26a,";
"    0x19dd,0x19dd,0x19dd,0x19dd,0x19dd,0x19dd,0x19dd,0x19dd,0x19dd,0x19dd,0x19dd,0x19dd,0x19dd,0x19dd,0x19dd,0x19dd,";
"    0x19dd,0x19dd,0x19dd,0x19dd,0x26d,0x26d,0x26d,0x26d,0x26d,0x26d,0x26d,0x26d,0x26d,0x26d,0x26d,0x26d,";
"    0x19e0,0x19e0,0x19e0,0x19e0,0x19e0,0x19e0,0x19e0,0x19e0,0x19e0,0x19e0,0x19e0,0x19e0,0x19e0,0x19e0,0x19e0,0x19e0,";
"    0x19e0,0x19e0,0x19e0,0x19e0,0x19e0,0x19e0,0x19e0,0x19e3,0x19ec,0x19e0,0x19e0,0x270,0x270,0x270,0x270,0x270,";
"    0x19ef,0x19ef,0x19ef,0x19ef,0x19ef,0x19ef,0x19ef,0x19f2,0x273,0x273,0x273,0x273,0x273,0x273,0x273,0x273,";
"    0x19fb,0x19fb,0x19fb,0x19fb,0x19fb,0x19fb,0x19fb,0x19fb,0x19fb,0x19fb,0x19fb,0x19fb,0x19fb,0x19fb,0x19fb,0x19fb,";
"    0x19fb,0x19fb,0x19f5,0x19f5,0x19f5,0x19f5,0x19f5,0x19f5,0x19f5,0x19f5,0x19f5,0x19f5,0x19f5,0x19f8,0x19f8,0x19f8,";
"    0x19f8,0x19fe,0x19fe,0x19fe,0x19fe,0x19fe,0x276,0x276,0x276,0x276,0x276,0x276,0x1a55,0x1a55,0x1a55,0x1a55,";
"    0x1a55,0x1a55,0x1a55,0x1a55,0x1a55,0x1a55,0x1a55,0x1a55,0x1a55,0x1a55,0x1a55,0x1a55,0x1a55,0x1a55,0x1a55,0x1a55,";
"    0x1a55,0x1a55,0x1a55,0x27c,0x27c,0x27c,0x27c,0x27c,0x27c,0x27c,0x27c,0x27c,0x1a64,0x1a64,0x1a64,0x1a64,";
"    0x1a64,0x1a64,0x1a64,0x1a64,0x27f,0x27f,0x1a64,0x1a64,0x1a64,0x1a64,0x1a64,0x1a64,0x1a64,0x1a64,0x1a64,0x1a64,";
"    0x1a64,0x1a64,0x1a64,0x1a64,0x1a64,0x1a64,0x1a64,0x1a64,0x1a64,0x1a64,0x1a64,0x1a64,0x1a64,0x1a61,0x1a61,0x1a61,";
"    0x1a58,0x1a58,0x1a58,0x1a58,0x27f,0x27f,0x1a58,0x1a58,0x1a61,0x1a61,0x1a61,0x1a61,0x1a5b,0x1a64,0x1a5e,0x1a64,";
"    0x1a61,0x27f,0x27f,0x27f,0x27f,0x27f,0x27f,0x27f,0x27f,0x27f,0x27f,0x27f,0x27f,0x27f,0x27f,0x27f,";
"    0x27f,0x27f,0x27f,0x27f,0x27f,0x27f,0x27f,0x27f,0x27f,0x27f,0x27f,0x27f,0x1a70,0x1a70,0x1a70,0x1a70,";
"    0x1a70,0x1a70,0x1a70,0x1a70,0x1a70,0x1a70,0x1a70,0x1a70,0x1a70,0x282,0x282,0x282,0x1a67,0x1a67,0x1a67,0x1a67,";
"    0x1a67,0x1a67,0x1a67,0x1a70,0x1a70,0x1a70,0x1a70,0x1a70,0x1a73,0x1a73,0x282,0x282,0x285,0x1a76,0x1a76,0x1a76,";
"    0x1a76,0x1a76,0x1a76,0x1a76,0x1a76,0x1a76,0x1a76,0x1a76,0x1a76,0x1a76,0x1a76,0x1a76,0x1a76,0x1a76,0x1a76,0x1a76,";
"    0x1a76,0x1a76,0x1a76,0x1a76,0x1a76,0x1a76,0x1a76,0x1a76,0x1a76,0x1a76,0x1a76,0x1a76,0x1a76,0x1a76,0x285,0x285,";
"    0x288,0x288,0x288,0x288,0x288,0x288,0x288,0x288,0x288,0x288,0x288,0x288,0x288,0x288,0x288,0x288,";
"    0x1aa3,0x1aa3,0x1aa3,0x288,0x288,0x288,0x288,0x288,0x288,0x288,0x288,0x288,0x288,0x288,0x288,0x288,";
"    0x1aa6,0x1aa6,0x1aa6,0x1aa6,0x288,0x288,0x288,0x288,0x288,0x288,0x288,0x288,0x1938,0x1938,0x1938,0x1938,";
"    0x1938,0x1938,0x1938,0x1938,0x1938,0x1938,0x1938,0x1938,0x1938,0x1938,0x1938,0x1938,0x1aa9,0x1aa9,0x1aa9,0x1b4b,";
"    0x1b4b,0x1b4b,0x1b4b,0x28b,0x28b,0x28b,0x28b,0x28b,0x28b,0x28b,0x28b,0x28b,0x1aa9,0x1aa9,0x1aa9,0x1aa9,";
"    0x1aa9,0x1aa9,0x1b4b,0x1b4b,0x1b4b,0x1b4b,0x1b4b,0x1b4b,0x1b4b,0x1b4b,0x1b4b,0x1b4b,0x1b4b,0x28b,0x28b,0x28b,";
"    0x28b,0x28b,0x28b,0x28b,0x1b4b,0x1b4b,0x1b4b,0x1b4b,0x1b4b,0x1b4b,0x1b4b,0x28b,0x28b,0x28b,0x28b,0x28b,";
"    0x28b,0x28b,0x28b,0x28b,0x28b,0x28b,0x28b,0x28b,0x1b4b,0x1b4b,0x1b4b,0x1b4b,0x1b4b,0x1b4b,0x1b4b,0x28b,";
"    0x28b,0x28b,0x28b,0x28b,0x28b,0x28b,0x28b,0x28b,0x28b,0x28b,0x28b,0x28b,0x28b,0x28b,0x28b,0x28b,";
"    0x28b,0x28b,0x28b,0x28b,0x28b,0x28b,0x28b,0x28b,0x28b,0x28b,0x28b,0x28b,0x28b,0x28b,0x28b,0x28b,";
"    0x1a7f,0x1a79,0x1a79,0x1a79,0x1a79,0x1a79,0x1a79,0x1a79,0x1a79,0x1a79,0x1a79,0x1a79,0x1a79,0x1a79,0x1a79,0x1a79,";
"    0x1a79,0x1a79,0x28e,0x28e,0x28e,0x28e,0x28e,0x28e,0x28e,0x28e,0x28e,0x28e,0x28e,0x28e,0x28e,0x1a7c,";
"    0x1a8b,0x1a8b,0x1a8b,0x1a8b,0x1a8b,0x1a8b,0x1a8b,0x1a8b,0x1a8b,0x1a8b,0x1a8b,0x1a8b,0x1a82,0x1a82,0x1a82,0x1a82,";
"    0x1a88,0x1a88,0x1a88,0x1a88,0x1a88,0x1a88,0x1a88,0x1a88,0x1a88,0x1a88,0x291,0x291,0x291,0x291,0x291,0x1a85,";
"    0x1af7,0x1af7,0x1af7,0x1af7,0x1af7,0x1af4,0x1af4,0x1af4,0x1af4,0x1af4,0x1af4,0x1af4,0x294,0x294,0x294,0x294,";
"    0x294,0x294,0x294,0x294,0x294,0x294,0x294,0x294,0x294,0x294,0x294,0x294,0x294,0x294,0x294,0x294,";
"    0x1b12,0x1b12,0x1b12,0x1b12,0x1b12,0x1b12,0x1b12,0x297,0x297,0x1b12,0x297,0x297,0x1b12,0x1b12,0x1b12,0x1b12,";
"    0x1b12,0x1b12,0x1b12,0x1b12,0x297,0x1b12,0x1b12,0x297,0x1b12,0x1b12,0x1b12,0x1b12,0x1b12,0x1b12,0x1b12,0x1b12,";
"    0x1b12,0x1b12,0x1b12,0x1b12,0x1b12,0x1b12,0x1b12,0x1b12,0x1afa,0x1b09,0x1b09,0x1b09,0x1b09,0x1b09,0x297,0x1b09,";
"    0x1b0c,0x297,0x297,0x1afa,0x1afa,0x1b0f,0x1b00,0x1b15,0x1b09,0x1b15,0x1b09,0x1afd,0x1b18,0x1b03,0x1b18,0x297,";
"    0x297,0x297,0x297,0x297,0x297,0x297,0x297,0x297,0x1b06,0x1b06,0x1b06,0x1b06,0x1b06,0x1b06,0x1b06,0x1b06,";
"    0x1b06,0x1b06,0x297,0x297,0x297,0x297,0x297,0x297,0x1b51,0x1b51,0x1b51,0x1b51,0x1b51,0x1b51,0x1b51,0x1b51,";
"    0x1b51,0x1b51,0x1b51,0x1b51,0x1b51,0x1b51,0x1b51,0x1b51,0x1b51,0x1b51,0x1b51,0x1b51,0x1b51,0x1b51,0x29a,0x29a,";
"    0x29a,0x29a,0x29a,0x29a,0x29a,0x29a,0x29a,0x29a,0x29a,0x29a,0x29a,0x29a,0x29a,0x29a,0x29a,0x29a,";
"    0x29a,0x29a,0x29a,0x29a,0x29a,0x29a,0x29a,0x29a,0x29a,0x29a,0x29a,0x29a,0x29a,0x29a,0x29a,0x29a,";
"    0x1b1e,0x1b1e,0x1b1e,0x1b1e,0x1b1e,0x1b1e,0x1b1e,0x1b1e,0x1b1e,0x1b1e,0x1b1e,0x1b1e,0x1b1e,0x1b1e,0x1b1e,0x1b1e,";
"    0x1b1e,0x1b1e,0x1b1e,0x2a0,0x1b1e,0x1b1e,0x1b1e,0x1b1e,0x1b1e,0x1b1e,0x1b1e,0x1b1e,0x1b1e,0x1b1e,0x1b1e,0x1b1e,";
"    0x1b1e,0x1b1e,0x1b1e,0x2a0,0x2a0,0x2a0,0x2a0,0x2a0,0x2a0,0x2a0,0x2a0,0x2a0,0x2a0,0x2a0,0x2a0,0x2a0,";
"    0x2a0,0x2a0,0x2a0,0x2a0,0x2a0,0x2a0,0x2a0,0x2a0,0x1b21,0x1b21,0x1b21,0x1b21,0x1b21,0x1b21,0x1b21,0x1b21,";
"    0x1b21,0x1b21,0x2a0,0x2a0,0x2a0,0x2a0,0x2a0,0x2a0,0x1b54,0x1b54,0x1b54,0x1b54,0x1b54,0x1b54,0x1b54,0x1b54,";
"    0x1b54,0x2a3,0x2a3,0x2a3,0x2a3,0x2a3,0x2a3,0x2a3,0x2a3,0x2a3,0x2a3,0x2a3,0x2a3,0x2a3,0x2a3,0x2a3,";
"    0x2a3,0x2a3,0x2a3,0x2a3,0x2a3,0x2a3,0x2a3,0x2a3,0x2a3,0x2a3,0x2a3,0x2a3,0x2a3,0x2a3,0x2a3,0x2a3,";
"    0x2a3,0x2a3,0x2a3,0x2a3,0x1b2a,0x1b2a,0x1b2a,0x1b2a,0x1b2a,0x1b2a,0x1b2a,0x1b2a,0x1b2a,0x1b2a,0x2a6,0x1b24,";
"    0x1b24,0x1b27,0x2a6,0x2a6,0x1b2a,0x1b2a,0x2a6,0x2a6,0x2a6,0x2a6,0x2a6,0x2a6,0x2a6,0x2a6,0x2a6,0x2a6,";
"    0x2a6,0x2a6,0x2a6,0x2a6,0x2a9,0x2a9,0x2a9,0x2a9,0x2a9,0x2a9,0x2a9,0x2a9,0x2a9,0x2a9,0x2a9,0x2a9,";
"    0x2a9,0x2a9,0x2a9,0x2a9,0x2a9,0x2a9,0x2a9,0x2a9,0x2a9,0x2a9,0x2a9,0x2a9,0x2a9,0x2a9,0x2a9,0x2a9,";
"    0x2a9,0x2a9,0x2a9,0x2a9,0x1932,0x2c1,0x2c1,0x2c1,0x2c1,0x2c1,0x2c1,0x2c1,0x2c1,0x2c1,0x2c1,0x2c1,";
"    0x2c1,0x2c1,0x2c1,0x2c1,0x2a9,0x2a9,0x2a9,0x2a9,0x2a9,0x2a9,0x2a9,0x2a9,0x2a9,0x2a9,0x2a9,0x2a9,";
"    0x2a9,0x2a9,0x2a9,0x2a9,0x2a9,0x2a9,0x2a9,0x2a9,0x2a9,0x2a9,0x2a9,0x2a9,0x2a9,0x2a9,0x2a9,0x2a9,";
"    0x2a9,0x2a9,0x97b,0x97b,0x1b4e,0x1b4e,0x1b4e,0x1b4e,0x1b4e,0x1b4e,0x1b4e,0x1b4e,0x1b4e,0x1b4e,0x1b4e,0x2c4,";
"    0x2c4,0x2c4,0x2c4,0x2c4,0x2a9,0x2a9,0x2a9,0x2a9,0x2a9,0x2a9,0x2a9,0x2a9,0x2a9,0x2a9,0x2a9,0x2a9,";
"    0x2a9,0x2a9,0x2a9,0x2a9,0x191d,0x191d,0x191d,0x191d,0x191d,0x191d,0x191d,0x191d,0x191d,0x191d,0x191d,0x1a04,";
"    0x1a04,0x1a04,0x1a04,0x1a04,0x1b33,0x1b33,0x1b33,0x1b33,0x1b33,0x1b33,0x1b33,0x1b33,0x1b33,0x1b33,0x1b33,0x1b33,";
"    0x1b33,0x2ac,0x2ac,0x2ac,0xc9f,0xc9f,0xc9f,0xc9f,0xc9f,0xc9f,0xc9f,0xc9f,0xc9f,0xc9f,0xc9f,0x12e4,";
"    0x12e4,0x12e4,0x2af,0x2af,0xed0,0xed0,0xed0,0xed0,0xed0,0xed0,0xed0,0xed0,0xed0,0xed0,0xed0,0xed0,";
"    0xed0,0xed0,0xed0,0xed0,0xed0,0xed0,0xed0,0xed0,0xed0,0xed0,0xed0,0xed0,0xed0,0xed0,0x2af,0x2af,";
"    0x2af,0x2af,0x2af,0x2af,0x2af,0x2af,0x2af,0x2af,0x2af,0x2af,0x2af,0x2af,0x2af,0x2af,0x2af,0x2af,";
"    0x2af,0x2af,0x2af,0x2af,0x2af,0x2af,0x2af,0x2af,0x2af,0x2af,0x2af,0x2af,0x2af,0x2af,0x2af,0x2af,";
"    0xba9,0xba9,0xba9,0xba9,0xba9,0xba9,0xba9,0xba9,0xba9,0xba9,0xba9,0xba9,0xba9,0xba9,0xba9,0xba9,";
"    0xba9,0xba9,0xba9,0xba9,0xba9,0xba9,0xba9,0x1b36,0x1b36,0x1b36,0x1b36,0x1b36,0x1b36,0x1b36,0x2b2,0x2b2,";
"    0xbac,0xbac,0xbac,0xbac,0xbac,0xbac,0xbac,0xbac,0xbac,0xbac,0xbac,0xbac,0xbac,0xbac,0xbac,0xbac,";
"    0xbac,0xbac,0xbac,0xbac,0xbac,0xbac,0xbac,0xbac,0xbac,0xbac,0xbac,0xbac,0xbac,0xbac,0x2b5,0x2b5,";
"    0x12f9,0x12f9,0x12f9,0x12f9,0x12f9,0x12f9,0x12f9,0x12f9,0x12f9,0x12f9,0x12f9,0x12f9,0x12f9,0x12f9,0x12f9,0x12f9,";
"    0x12f9,0x12f9,0x12f9,0x12f9,0x12f9,0x2b8,0x2b8,0x2b8,0x2b8,0x2b8,0x2b8,0x2b8,0x2b8,0x2b8,0x2b8,0x2b8,";
"    0x1416,0x1416,0x1416,0x1416,0x1416,0x1416,0x1416,0x1416,0x1416,0x1416,0x1416,0x1416,0x1416,0x1416,0x1416,0x1416,";
"    0x1416,0x1416,0x1416,0x1416,0x1416,0x1416,0x1416,0x1416,0x1416,0x1416,0x1416,0x1416,0x1416,0x1416,0x2bb,0x2bb,";
"    0x17dc,0x17dc,0x2be,0x2be,0x2be,0x2be,0x2be,0x2be,0x2be,0x2be,0x2be,0x2be,0x2be,0x2be,0x2be,0x2be,";
"    0x1932,0x1932,0x1932,0x1932,0x1932,0x1932,0x1932,0x1932,0x1932,0x1932,0x1932,0x1932,0x1932,0x1932,0x1932,0x1932,";
"    0x3cc,0x3c0,0x3c0,0x3c0,0x3c0,0x3c0,0x3c0,0x3c0,0x3c0,0x3cc,0x3cc,0x3cc,0x3cc,0x3c6,0x1158,0x133e,";
"    0x3cf,0x945,0x948,0x3bd,0x3bd,0x1155,0x133b,0x133b,0x3d2,0x3d2,0x3d2,0x3d2,0x3d2,0x3d2,0x3d2,0x3d2,";
"    0x1155,0x3c0,0x3c0,0x3cc,0xce1,0x3cf,0x3cf,0x3cf,0x3cf,0x3cf,0x3cf,0x3cf,0x3cf,0x3cf,0x3cf,0x3cf,";
"    0x3cf,0x3cf,0x3cf,0x3cf,0x3cf,0x3cf,0x3cf,0x3cf,0x3cf,0x3cf,0x3cf,0x3cf,0x3cf,0x3cf,0x3cf,0x3cf,";
"    0x3cf,0x3cf,0x3c0,0x3c0,0x8d0,0x8d3,0x963,0x963,0x963,0x963,0x963,0x963,0x963,0x963,0x963,0x963,";
"    0x3c9,0xfba,0xfb7,0x1341,0x1341,0x1341,0x1341,0x1341,0x1506,0x115b,0x115b,0xf0c,0xf0c,0xdda,0xf0c,0xf0c,";
"    0x3cf,0x3cf,0x3cf,0x3cf,0x3cf,0x3cf,0x3cf,0x3cf,0x3cf,0x3d2,0x3cf,0x3cf,0x3cf,0x3cf,0x3cf,0x3cf,";
"    0x3cf,0x3d2,0x3cf,0x3cf,0x3d2,0x3cf,0x3cf,0x3cf,0x3cf,0x3cf,0x133b,0x133e,0x3c3,0x3cf,0x3cc,0x3cc,";
"    0x46e,0x46e,0x46e,0x46e,0x46e,0x46e,0x46e,0x46e,0x46e,0x1347,0x46e,0x46e,0x46e,0x46e,0x46e,0x46e,";
"    0x46e,0x46e,0x46e,0x46e,0x46e,0x46e,0x46e,0x46e,0x46e,0x46e,0x1347,0x18ae,0x18ae,0xfd8,0x45f,0x468,";
"    0x4aa,0x4aa,0x4aa,0x4aa,0x4aa,0x4aa,0x4aa,0x4aa,0x4aa,0x4aa,0x4aa,0x4aa,0x4aa,0x4aa,0x4aa,0x4aa,";
"    0x4aa,0x4aa,0x4aa,0x4aa,0x4aa,0x4aa,0x4aa,0xbc7,0xbc7,0xde6,0xde6,0x8d6,0xde9,0x1428,0x1428,0x1428,";
"    0x4ad,0x4ad,0x4ad,0x4ad,0x4ad,0x4ad,0x4ad,0x4ad,0x4ad,0x4ad,0x4ad,0x4ad,0x4ad,0x4ad,0x4ad,0x4ad,";
"    0x4ad,0x4ad,0x4ad,0x4ad,0x4ad,0x4ad,0x4ad,0x4ad,0x4ad,0x4ad,0x4ad,0x4ad,0x4ad,0x4ad,0x4ad,0x4ad,";
"    0x4b3,0x4b3,0x4b3,0x1170,0x1170,0x1170,0x1170,0x1170,0x4b0,0x4b0,0x4b0,0x4b0,0x4b0,0x4b0,0x4b0,0x4b0,";
"    0x4b0,0x4b0,0x4b0,0x4b0,0x4b0,0x4b0,0x4b0,0x4b0,0x4b0,0x4b0,0x4b0,0x4b0,0x4b0,0x4b0,0x4b0,0x4b0,";
"    0x4b0,0x4b0,0x4b0,0x4b0,0x4b0,0x4b0,0x4b0,0x4b0,0x4b0,0x4b0,0x116d,0x116d,0x116d,0x116d,0x116d,0x116d,";
"    0x4b6,0x4b3,0x4b3,0x4b3,0x4b3,0x4b3,0x4b3,0x4b3,0x4b3,0x4b3,0x4b3,0x4b3,0x4b3,0x4b3,0x4b3,0x4b3,";
"    0x4b3,0x4b3,0x4b3,0x4b3,0x4b3,0x4b3,0x4b3,0x4b3,0x4b3,0x4b3,0x4b3,0x4b3,0x4b3,0x4b3,0x4b3,0x4b3,";
"    0x4b3,0x4b3,0x4b3,0x4b3,0x4bf,0x4b9,0x4bf,0x4b9,0x4bf,0x4b9,0x4bf,0x4b9,0x4bf,0x4b9,0x4bf,0x4b9,";
"    0x4bf,0x4b9,0x4bf,0x4b9,0x4bf,0x4b9,0x4bf,0x4b9,0x4bf,0x4b9,0x4bf,0x4b9,0x4bf,0x4b9,0x4bf,0x4b9,";
"    0x4bf,0x4b9,0x4bf,0x4b9,0x4bf,0x4b9,0x4b9,0x4b9,0x4b9,0x4b9,0x4bc,0x9bd,0x1005,0x1005,0x1008,0x1005,";
"    0x4bf,0x4b9,0x4bf,0x4b9,0x4bf,0x4b9,0x4bf,0x4b9,0x4bf,0x4b9,0x4bf,0x4b9,0x4bf,0x4b9,0x4bf,0x4b9,";
"    0x4bf,0x4b9,0x4bf,0x4b9,0x4bf,0x4b9,0x4bf,0x4b9,0x4bf,0x4b9,0x1008,0x1005,0x1008,0x1005,0x1008,0x1005,";
"    0x4cb,0x4cb,0x4cb,0x4cb,0x4cb,0x4cb,0x4cb,0x4cb,0x4ce,0x4ce,0x4ce,0x4ce,0x4ce,0x4ce,0x4ce,0x4ce,";
"    0x4cb,0x4cb,0x4cb,0x4cb,0x4cb,0x4cb,0x4cb,0x4cb,0x4ce,0x4ce,0x4ce,0x4ce,0x4ce,0x4ce,0x4ce,0x4ce,";
"    0x6ae,0x6ae,0x6b1,0x4e9,0x6bd,0x6ba,0x6ba,0x6b7,0x513,0x513,0x4d1,0x4d1,0x4d1,0x4d1,0x4d1,0xb58,";
"    0x6c0,0x4f5,0x6d8,0x6db,0x50a,0x6c0,0x4f8,0x4f8,0x4e9,0x504,0x504,0x6ae,0x510,0x50d,0x6b4,0x4e3,";
"    0x4da,0x4da,0x4dd,0x4dd,0x4dd,0x4dd,0x4dd,0x4e0,0x4dd,0x4dd,0x4dd,0x4d4,0x51c,0x519,0x516,0x516,";
"    0x6cc,0x4fe,0x4fb,0x6c9,0x6c6,0x6c3,0x6d5,0x4ec,0x6d2,0x6d2,0x501,0x504,0x6cf,0x6cf,0x501,0x504,";
"    0x4e6,0x4e9,0x4e9,0x4e9,0x507,0x4f2,0x4ef,0xbdc,0xaf2,0xaf5,0xaef,0xaef,0xaef,0xaef,0xbd3,0xbd3,";
"    0xbd3,0xbd3,0xbd9,0xd0e,0xd0b,0xdf5,0xdf8,0xbd6,0xdf8,0xdf8,0xdf8,0xdf8,0xdf5,0xdf8,0xdf8,0xbd0,";
"    0x540,0x540,0x540,0x540,0x540,0x540,0x540,0x53d,0x543,0x75c,0x540,0x9c0,0x9e1,0xaf8,0xaf8,0xaf8,";
"    0xbe2,0xbe2,0xdfe,0xdfe,0xdfe,0xdfe,0x1179,0x117c,0x117c,0x135c,0x14f4,0x151e,0x1521,0x1521,0x1734,0x18b1,";
"    0x54f,0x54f,0x567,0x6ea,0x54c,0x6e7,0x54f,0x564,0x54c,0x6ea,0x55e,0x567,0x567,0x567,0x55e,0x55e,";
"    0x567,0x567,0x567,0x6f3,0x54c,0x567,0x6ed,0x54c,0x55b,0x567,0x567,0x567,0x567,0x567,0x54c,0x54c,";
"    0x552,0x6e7,0x6f0,0x54c,0x567,0x54c,0x6f6,0x54c,0x567,0x555,0x56d,0x6f9,0x567,0x567,0x558,0x55e,";
"    0x567,0x567,0x56a,0x567,0x55e,0x561,0x561,0x561,0x561,0xb04,0xb01,0xd11,0xe07,0xbf7,0xbfa,0xbfa,";
"    0xbf4,0xbf1,0xbf1,0xbf1,0xbf1,0xbfa,0xbf7,0xbf7,0xbf7,0xbf7,0xbee,0xbf1,0xe04,0xf18,0xf1b,0x100e,";
"    0x117f,0x117f,0x117f,0x6ff,0x6fc,0x570,0x573,0x573,0x573,0x573,0x573,0x6fc,0x6ff,0x6ff,0x6fc,0x573,";
"    0x705,0x705,0x705,0x705,0x705,0x705,0x705,0x705,0x705,0x705,0x705,0x705,0x57c,0x57c,0x57c,0x57c,";
"    0x702,0x702,0x702,0x702,0x702,0x702,0x702,0x702,0x702,0x702,0x576,0x576,0x576,0x576,0x576,0x576,";
"    0x582,0x582,0x582,0x582,0x582,0x582,0x582,0x582,0x57f,0x588,0x588,0x582,0x582,0x582,0x585,0x57f,";
"    0x582,0x582,0x57f,0x57f,0x57f,0x57f,0x582,0x582,0x708,0x708,0x57f,0x57f,0x582,0x582,0x582,0x582,";
"    0x582,0x582,0x582,0x582,0x582,0x582,0x582,0x582,0x582,0x585,0x585,0x585,0x582,0x582,0x70b,0x582,";
"    0x70b,0x582,0x582,0x582,0x582,0x582,0x582,0x582,0x57f,0x582,0x57f,0x57f,0x57f,0x57f,0x57f,0x57f,";
"    0x582,0x582,0x57f,0x708,0x57f,0x57f,0x57f,0xb0a,0xb0a,0xb0a,0xb0a,0xb0a,0xb0a,0xb0a,0xb0a,0xb0a,";
"    0xbfd,0xbfd,0xbfd,0xbfd,0xbfd,0xbfd,0xbfd,0xbfd,0xbfd,0xbfd,0xbfd,0xbfd,0x711,0x58b,0x711,0x711,";
"    0x58e,0x58b,0x58b,0x711,0x711,0x58e,0x58b,0x711,0x58e,0x58b,0x58b,0x711,0x58b,0x711,0x59a,0x597,";
"    0x58b,0x711,0x58b,0x58b,0x58b,0x58b,0x711,0x58b,0x58b,0x711,0x711,0x711,0x711,0x58b,0x58b,0x711,";
"    0x58e,0x711,0x58e,0x711,0x711,0x711,0x711,0x711,0x717,0x591,0x711,0x591,0x591,0x58b,0x58b,0x58b,";
"    0x711,0x711,0x711,0x711,0x58b,0x58b,0x58b,0x58b,0x711,0x711,0x58b,0x58b,0x58b,0x58e,0x58b,0x58b,";
"    0x58e,0x58b,0x58b,0x58e,0x711,0x58e,0x58b,0x58b,0x711,0x58b,0x58b,0x58b,0x58b,0x58b,0x711,0x58b,";
"    0x58b,0x58b,0x58b,0x58b,0x58b,0x58b,0x58b,0x58b,0x58b,0x58b,0x58b,0x58b,0x714,0x711,0x58e,0x58b,";
"    0x711,0x711,0x711,0x711,0x58b,0x58b,0x711,0x711,0x58b,0x58e,0x714,0x714,0x58e,0x58e,0x58b,0x58b,";
"    0x58e,0x58e,0x58b,0x58b,0x58e,0x58e,0x58b,0x58b,0x58b,0x58b,0x58b,0x58b,0x58e,0x58e,0x711,0x711,";
"    0x58e,0x58e,0x711,0x711,0x58e,0x58e,0x58b,0x58b,0x58b,0x58b,0x58b,0x58b,0x58b,0x58b,0x58b,0x58b,";
"    0x58b,0x711,0x58b,0x58b,0x58b,0x711,0x58b,0x58b,0x58b,0x58b,0x58b,0x58b,0x58b,0x711,0x58b,0x58b,";
"    0x58b,0x58b,0x58b,0x58b,0x58e,0x58e,0x58e,0x58e,0x58b,0x58b,0x58b,0x58b,0x58b,0x58b,0x58b,0x58b,";
"    0x58b,0x58b,0x58b,0x58b,0x58b,0x58b,0x58b,0x711,0x58b,0x58b,0x58b,0x58b,0x58b,0x58b,0x58b,0x58b,";
"    0x58b,0x58b,0x58b,0x58b,0x58b,0x58b,0x58b,0x58b,0x58b,0x58b,0x58b,0x58b,0x58b,0x58b,0x58b,0x58b,";
"    0x58b,0x58b,0x58b,0x58b,0x58b,0x58b,0x58b,0x58b,0x58e,0x58e,0x58e,0x58e,0x58b,0x58b,0x58b,0x58b,";
"    0x58b,0x58b,0x58e,0x58e,0x58e,0x58e,0x58b,0x594,0x58b,0x58b,0xc00,0xc00,0xc00,0xc00,0xc00,0xc00,";
"    0xc00,0xc00,0xc00,0xc00,0xc00,0xc00,0xc00,0xc00,0x59d,0xb0d,0x59d,0x59d,0x59d,0x59d,0x59d,0x59d,";
"    0x5a9,0x5a6,0x5a9,0x5a6,0x59d,0x59d,0x59d,0x59d,0x59d,0x59d,0x71a,0x59d,0x59d,0x59d,0x59d,0x59d,";
"    0x59d,0x59d,0x81f,0x81f,0x59d,0x59d,0x59d,0x59d,0x5a3,0x5a3,0x59d,0x59d,0x59d,0x59d,0x59d,0x59d,";
"    0x5a0,0x825,0x822,0x59d,0x59d,0x59d,0x59d,0x59d,0x59d,0x59d,0x59d,0x59d,0x59d,0x59d,0x59d,0x59d,";
"    0x59d,0x59d,0x59d,0x59d,0x59d,0x59d,0x59d,0x59d,0x59d,0x59d,0x59d,0x59d,0x59d,0x59d,0x59d,0x59d,";
"    0x59d,0x59d,0x59d,0x59d,0x59d,0x59d,0x59d,0xb0d,0xc06,0xb0d,0xb0d,0xb0d,0x5ac,0x5ac,0x5ac,0x5ac,";
"    0x5ac,0x5ac,0x5ac,0x5ac,0x5ac,0x5ac,0x5ac,0x5ac,0x5ac,0x5ac,0x5ac,0x5ac,0x5ac,0x5ac,0x5ac,0x5ac,";
"    0x5ac,0x5ac,0x5ac,0x5ac,0x5ac,0x5ac,0x5ac,0x5ac,0x5ac,0x5ac,0x5ac,0x5ac,0x723,0x723,0x723,0x723,";
"    0x723,0x723,0x723,0x723,0x723,0x723,0x5b2,0xc6f,0xc6f,0xc6f,0xc6f,0xc6f,0xc6f,0xc6f,0xc6f,0xc6f,";
"    0xc6f,0xc6f,0xc6f,0xc6f,0xc6f,0xc6f,0xc6f,0xc6f,0xc6f,0xc6f,0xc6f,0xd89,0x72c,0x72c,0x72c,0x72c,";
"    0x72c,0x72c,0x72c,0x72c,0x72c,0x72c,0x72c,0x72c,0x72c,0x72c,0x72c,0x72c,0x72c,0x72c,0x72c,0x72c,";
"    0x5b5,0x5b8,0x5b8,0x5b8,0x5b8,0x5b8,0x5b8,0x5b8,0x5b8,0x5b8,0x5b8,0x5b8,0x72c,0x72c,0x72c,0x72c,";
"    0x72c,0x72c,0x72c,0x72c,0x72c,0x72c,0x72c,0x72c,0x5b8,0x5b8,0x5b8,0x5b8,0x72c,0x72c,0x72c,0x72c,";
"    0x72c,0x72c,0x72c,0x72c,0x72c,0x72c,0x72c,0x72c,0x72c,0x72c,0x72c,0x72c,0x72f,0x72f,0x72f,0x72f,";
"    0x72f,0x72f,0x72f,0x72f,0x72f,0x72f,0x72f,0x72f,0x72f,0x72f,0x72f,0x72f,0x5bb,0x5bb,0x72f,0x72f,";
"    0x72f,0x72f,0xc09,0xc09,0xc09,0xc09,0xc09,0xc09,0xc09,0xc09,0xc09,0xc09,0x735,0x735,0x5be,0x732,";
"    0x732,0x732,0x732,0x732,0x732,0x732,0x5c1,0x5c1,0x5be,0x5be,0x5c4,0x5c4,0x5c4,0x5c4,0x735,0x735,";
"    0x5c4,0x5c4,0x738,0x735,0x5be,0x5be,0x5be,0x5be,0x735,0x735,0x5c4,0x5c4,0x738,0x735,0x5be,0x5be,";
"    0x5be,0x5be,0x735,0x735,0x732,0x5be,0x5c4,0x735,0x5be,0x5be,0x732,0x735,0x735,0x735,0x5c4,0x5c4,";
"    0x5be,0x5be,0x5be,0x5be,0x5be,0x5be,0x5be,0x5be,0x5be,0x5be,0x5be,0x5be,0x5be,0x5be,0x735,0x732,";
"    0x735,0x732,0x5be,0x5c4,0x5c4,0x5c4,0x5c4,0x5c4,0x5c4,0x5be,0x5be,0x732,0xb16,0xb16,0xb16,0xb16,";
"    0xb16,0xb16,0xb16,0xb16,0xc0c,0xc0c,0xc0c,0xc0f,0xc0f,0xc8a,0xc8a,0xc0c,0x5d3,0x5d3,0x5d3,0x5d3,";
"    0x5d0,0x74a,0x747,0x5ca,0x5ca,0x73b,0x5ca,0x5ca,0x5ca,0x5ca,0x741,0x73b,0x5ca,0x5d0,0x5ca,0x5c7,";
"    0xd92,0xd92,0xc15,0xc15,0xe13,0xb19,0x5cd,0x5cd,0x73e,0x5d6,0x73e,0x5cd,0x5d0,0x5ca,0x5d0,0x5d0,";
"    0x5ca,0x5ca,0x5d0,0x5ca,0x5ca,0x5ca,0x5d0,0x5ca,0x5ca,0x5ca,0x5d0,0x5d0,0x5ca,0x5ca,0x5ca,0x5ca,";
"    0x5ca,0x5ca,0x5ca,0x5ca,0x5d0,0x5d3,0x5d3,0x5cd,0x5ca,0x5ca,0x5ca,0x5ca,0x74d,0x5ca,0x74d,0x5ca,";
"    0x5ca,0x5ca,0x5ca,0x5ca,0x828,0x828,0x828,0x828,0x828,0x828,0x828,0x828,0x828,0x828,0x828,0x828,";
"    0x5ca,0x5ca,0x5ca,0x5ca,0x5ca,0x5ca,0x5ca,0x5ca,0x5ca,0x5ca,0x5ca,0x5d0,0x74d,0x74a,0x5d9,0x74d,";
"    0x73b,0x741,0x5d0,0x73b,0x744,0x73b,0x73b,0x5ca,0x73b,0x74a,0x5d9,0x74a,0xb19,0xb19,0xc18,0xc18,";
"    0xc18,0xc18,0xc18,0xc18,0xc18,0xc18,0xc18,0xc1b,0xc18,0xc18,0xe10,0xec7,0x5dc,0x5dc,0x5dc,0x5dc,";
"    0x5dc,0x5dc,0x5dc,0x5dc,0x5dc,0x5dc,0x5dc,0x5dc,0x5dc,0x5dc,0x5dc,0x5dc,0x5dc,0x5dc,0x5dc,0x5dc,";
"    0x5df,0x13e6,0x13e6,0x13e6,0x5df,0x5df,0x5df,0x5df,0x5df,0x5df,0x5df,0x5df,0x152a,0x5eb,0x5f4,0x5eb,";
"    0x5eb,0x13e6,0x5df,0x5df,0x5f4,0x5f4,0x13e9,0x13e9,0x5f7,0x5f7,0x5e8,0x5ee,0x5e8,0x5e8,0x5ee,0x5df,";
"    0x5ee,0x5df,0x5ee,0x5df,0x5df,0x5df,0x5df,0x5df,0x5df,0x5ee,0x5df,0x5df,0x5df,0x5df,0x5df,0x5df,";
"    0x13e6,0x5df,0x5df,0x5df,0x5df,0x5df,0x5df,0x5df,0x5df,0x5df,0x5df,0x5ee,0x5ee,0x5df,0x5df,0x5df,";
"    0x5df,0x5df,0x5df,0x5df,0x5df,0x753,0x5df,0x5df,0x5df,0x5df,0x5df,0x5df,0x5ee,0x5df,0x5df,0x5ee,";
"    0x5df,0x5df,0x5df,0x5df,0x13e6,0x5df,0x13e6,0x5df,0x5df,0x5df,0x5df,0x13e6,0x13e6,0x13e6,0x5df,0x12de,";
"    0x5df,0x5df,0x5df,0x5e5,0x5e5,0x5e5,0x5e5,0x1368,0x1368,0x5df,0x5e2,0x5f1,0x5f4,0x5e8,0x5e8,0x5e8,";
"    0xc21,0xc1e,0xc21,0xc1e,0xc21,0xc1e,0xc21,0xc1e,0xc21,0xc1e,0xc21,0xc1e,0xc21,0xc1e,0x750,0x750,";
"    0x750,0x750,0x750,0x750,0x750,0x750,0x750,0x750,0x5df,0x5ee,0x5df,0x5df,0x5df,0x5df,0x5df,0x5df,";
"    0x5df,0x5df,0x5df,0x5df,0x5df,0x5df,0x5df,0x5df,0x13e6,0x5df,0x5df,0x5df,0x5df,0x5df,0x5df,0x5df,";
"    0x5df,0x5df,0x5df,0x5df,0x5df,0x5df,0x5df,0x13e6,0x618,0x618,0x618,0x618,0x618,0x618,0x618,0x618,";
"    0x618,0x618,0x618,0x618,0x618,0x61b,0x61b,0x61b,0x61b,0x61b,0x61b,0x61b,0x621,0x621,0x621,0x621,";
"    0x621,0x621,0x621,0x621,0x618,0x61e,0x60f,0x612,0x61e,0x61e,0x61e,0x61e,0x61e,0x61e,0x61e,0x61e,";
"    0x61e,0x61e,0x61e,0x61e,0x61e,0x61e,0x61e,0x61e,0x61e,0x61e,0x61e,0x61e,0x61e,0x61e,0x61e,0x61e,";
"    0x61e,0x61e,0x61e,0x61e,0x61e,0x61e,0x615,0x615,0x615,0x615,0x615,0x615,0x618,0x618,0x618,0x618,";
"    0x618,0x618,0x618,0x618,0x618,0x618,0x618,0x618,0x618,0x618,0x618,0x618,0x618,0x618,0x618,0x618,";
"    0x618,0x618,0x618,0x618,0x618,0x618,0x618,0x618,0x61b,0x621,0x61e,0x618,0x61b,0x621,0x61e,0x618,";
"    0x61b,0x621,0x61e,0x618,0x61b,0x621,0x61e,0x618,0x61b,0x621,0x61e,0x618,0x61b,0x621,0x61e,0x618,";
"    0x61b,0x621,0x61e,0x618,0x61b,0x621,0x61e,0x618,0x61e,0x618,0x61e,0x618,0x61e,0x618,0x61e,0x618,";
"    0x61e,0x618,0x61e,0x618,0x61b,0x621,0x61e,0x618,0x61b,0x621,0x61e,0x618,0x61b,0x621,0x61e,0x618,";
"    0x61b,0x621,0x61e,0x618,0x61e,0x618,0x61b,0x621,0x61e,0x618,0x61e,0x618,0x61b,0x621,0x61e,0x618,";
"    0x61b,0x621,0x61e,0x618,0x61e,0x618,0x136b,0x136b,0x136b,0x136b,0x136b,0x136b,0x136b,0x136b,0x136b,0x136b,";
"    0x136b,0x136b,0x136b,0x136b,0x61e,0x618,0x61e,0x618,0x61e,0x618,0x61b,0x621,0x61b,0x621,0x61e,0x618,";
"    0x61e,0x618,0x61e,0x618,0x61e,0x618,0x61e,0x618,0x61e,0x618,0x61e,0x618,0x61b,0x61e,0x618,0x61b,";
"    0x61e,0x618,0x61b,0x621,0x618,0x618,0x618,0x618,0x618,0x618,0x618,0x618,0x618,0x618,0x618,0x618,";
"    0x618,0x618,0x618,0x618,0x618,0x618,0x618,0x618,0x618,0x618,0x618,0x61b,0x61b,0x61b,0x61b,0x61b,";
"    0x61b,0x61b,0x61b,0x61b,0x61e,0x61e,0x61e,0x61e,0x61e,0x61e,0x61e,0x61e,0x61e,0x61e,0x61e,0x61e,";
"    0x61e,0x61e,0x61e,0x61e,0x61e,0x618,0x618,0x618,0x618,0x618,0x618,0x618,0x618,0x618,0x618,0x618,";
"    0x618,0x618,0x618,0x618,0x61b,0x61b,0x618,0x61b,0x618,0x61b,0x618,0x618,0x61b,0x618,0x618,0x61b,";
"    0x618,0x61b,0x618,0x618,0x61b,0x618,0x61b,0x61b,0x618,0x618,0x618,0x61b,0x618,0x618,0x618,0x618,";
"    0x618,0x61b,0x618,0x618,0x618,0x618,0x618,0x618,0x618,0x618,0x618,0x618,0x618,0x618,0x618,0x618,";
"    0x618,0x618,0x618,0x618,0x618,0x618,0x618,0x618,0x61b,0x61b,0x618,0x618,0x61b,0x618,0x61b,0x618,";
"    0x618,0x618,0x618,0x618,0x61b,0x61b,0x61b,0x61b,0x61b,0x61b,0x61b,0x61b,0x61b,0x61b,0x61b,0x61b,";
"    0x61b,0x61b,0x61b,0x61b,0x61b,0x61b,0x61b,0x61b,0x61b,0x61b,0x61b,0x61b,0x61b,0x61b,0x61b,0x61b,";
"    0x61b,0x61b,0x61b,0x61b,0x61b,0x61b,0x61b,0x621,0x61e,0x61e,0x61e,0x61e,0x61e,0x61e,0x61e,0x61e,";
"    0x61e,0x61e,0x61e,0x61e,0x61e,0x61e,0x61e,0x61e,0x61e,0x61e,0x61e,0x61e,0x61e,0x61e,0x61e,0x61e,";
"    0x61e,0x61e,0x61e,0x61e,0x61e,0x61e,0x61e,0x61e,0x621,0x621,0x621,0x621,0x621,0x621,0x621,0x621,";
"    0x621,0x621,0x621,0x621,0x621,0x621,0x621,0x621,0x621,0x621,0x621,0x621,0x621,0x61e,0x61e,0x61e,";
"    0x61e,0x61e,0x61e,0x61e,0x61e,0x61e,0x61e,0x61e,0x624,0x624,0x624,0x624,0x101a,0x101a,0x101a,0x152d,";
"    0x152d,0x152d,0x152d,0x152d,0x152d,0x152d,0x173a,0x173a,0x885,0x88b,0x88b,0x897,0x897,0x888,0x87f,0x888,";
"    0x87f,0x888,0x87f,0x888,0x87f,0x888,0x87f,0x888,0x633,0x633,0x62d,0x633,0x62d,0x633,0x62d,0x633,";
"    0x62d,0x633,0x62d,0x630,0x636,0x633,0x62d,0x633,0x62d,0x630,0x636,0x633,0x62d,0x633,0x62d,0x630,";
"    0x636,0x633,0x62d,0x630,0x636,0x633,0x62d,0x630,0x636,0x633,0x62d,0x633,0x62d,0x633,0x62d,0x633,";
"    0x62d,0x633,0x62d,0x630,0x636,0x633,0x62d,0x630,0x636,0x633,0x62d,0x630,0x636,0x633,0x62d,0x630,";
"    0x636,0x633,0x62d,0x630,0x636,0x633,0x62d,0x630,0x636,0x633,0x62d,0x630,0x636,0x633,0x62d,0x630,";
"    0x636,0x633,0x62d,0x630,0x720,0x720,0x720,0x720,0x720,0x720,0x720,0x720,0x720,0x720,0x720,0x720,";
"    0x720,0x720,0x720,0x720,0x720,0x720,0x720,0x720,0x71d,0x71d,0x71d,0x71d,0x71d,0x71d,0x71d,0x71d,";
"    0x71d,0x71d,0x71d,0x71d,0x71d,0x71d,0x71d,0x71d,0x71d,0x71d,0x71d,0x71d,0x71d,0x71d,0x71d,0x71d,";
"    0x71d,0x71d,0x71d,0x71d,0x71d,0x71d,0x71d,0x71d,0x71d,0x71d,0x726,0x726,0x726,0x726,0x726,0x726,";
"    0x726,0x726,0x726,0x726,0x726,0x726,0x729,0x726,0x726,0x726,0x726,0x726,0x726,0x726,0x726,0x726,";
"    0x726,0x726,0x726,0x726,0x723,0x723,0x723,0x723,0x723,0x723,0x723,0x723,0x723,0x723,0x723,0x723,";
"    0x723,0x723,0x723,0x723,0x72c,0x72c,0x72c,0x72c,0x72c,0x72c,0x72c,0x72c,0x72c,0x72c,0x72c,0x72c,";
"    0x72c,0x72c,0x72c,0x72c,0x72c,0x72c,0x72c,0x72c,0x72c,0x72c,0x72c,0x72c,0x72c,0x72c,0x72c,0x72c,";
"    0x72c,0x72c,0x72c,0x72c,0x756,0x756,0x756,0x756,0x756,0x756,0x756,0x756,0x756,0x756,0x756,0x756,";
"    0x756,0x756,0x756,0x756,0x756,0x756,0x756,0x756,0x756,0x756,0x756,0x756,0x756,0x756,0x756,0x756,";
"    0x756,0x756,0x756,0x756,0xc78,0x8e8,0x8e2,0x8df,0x8e5,0x8dc,0x76b,0x76e,0x76e,0x76e,0x76e,0x76e,";
"    0x76e,0x76e,0x76e,0x76e,0x8ee,0x76b,0x76b,0x76b,0x76b,0x76b,0x76b,0x76b,0x76b,0x76b,0x76b,0x76b,";
"    0x76b,0x76b,0x76b,0x76b,0x76b,0x76b,0x76b,0x76b,0x76b,0x76b,0x76b,0x76b,0x76b,0x76b,0x76b,0x76b,";
"    0x76b,0x76b,0x76b,0x76b,0x76b,0x76b,0x8eb,0x8eb,0x771,0x8fd,0x900,0x906,0x82b,0x837,0x91b,0x834,";
"    0x8f4,0x8f1,0x8f4,0x8f1,0x8fa,0x8f7,0x8fa,0x8f7,0x8f4,0x8f1,0x831,0x906,0x8f4,0x8f1,0x8f4,0x8f1,";
"    0x8f4,0x8f1,0x8f4,0x8f1,0x909,0x912,0x90f,0x90f,0x777,0x7b3,0x7b3,0x7b3,0x7b3,0x7b3,0x7b3,0x7ad,";
"    0x7ad,0x7ad,0x7ad,0x7ad,0x7ad,0x7ad,0x7ad,0x7ad,0x7ad,0x7ad,0x7ad,0x7ad,0x7ad,0x7ad,0x7ad,0x7ad,";
"    0x7ad,0x7ad,0x7ad,0x77a,0x795,0x774,0x79b,0x79e,0x798,0x7b0,0x7b0,0x7b0,0x7b0,0x7b0,0x7b0,0x7aa,";
"    0x7aa,0x7aa,0x7aa,0x7aa,0x7aa,0x7aa,0x7aa,0x7aa,0x7aa,0x7aa,0x7aa,0x7aa,0x7aa,0x7aa,0x7aa,0x7aa,";
"    0x7aa,0x7aa,0x7aa,0x77a,0x795,0x774,0x795,0xc7b,0x819,0x819,0x819,0x819,0x819,0x819,0x819,0x819,";
"    0x819,0x819,0x819,0x819,0x819,0x819,0x819,0x819,0x819,0x819,0x819,0x819,0x819,0x819,0x819,0x819,";
"    0x819,0x819,0x819,0x819,0x819,0x819,0x819,0x819,0x819,0x819,0x12d8,0x12d8,0x12d8,0x12d8,0x12d8,0x81c,";
"    0x831,0x834,0x834,0x834,0x834,0x834,0x834,0x834,0x834,0x834,0x951,0x951,0x951,0x951,0x83a,0x83a,";
"    0x90c,0x918,0x918,0x918,0x918,0x915,0x82e,0x903,0xb3d,0xb3d,0xb3d,0xc8d,0xcab,0xca8,0xb5b,0x8d9,";
"    0x840,0x83d,0x840,0x843,0x83d,0x840,0x83d,0x840,0x83d,0x840,0x83d,0x83d,0x83d,0x83d,0x83d,0x83d,";
"    0x840,0x840,0x83d,0x840,0x840,0x83d,0x840,0x840,0x83d,0x840,0x840,0x83d,0x840,0x840,0x83d,0x83d,";
"    0xcae,0x852,0x84c,0x852,0x84c,0x852,0x84c,0x852,0x84c,0x852,0x84c,0x84c,0x84f,0x84c,0x84f,0x84c,";
"    0x84f,0x84c,0x84f,0x84c,0x84f,0x84c,0x84f,0x84c,0x84f,0x84c,0x84f,0x84c,0x84f,0x84c,0x84f,0x84c,";
"    0x84f,0x84c,0x84f,0x852,0x84c,0x84f,0x84c,0x84f,0x84c,0x84f,0x84c,0x84c,0x84c,0x84c,0x84c,0x84c,";
"    0x84f,0x84f,0x84c,0x84f,0x84f,0x84c,0x84f,0x84f,0x84c,0x84f,0x84f,0x84c,0x84f,0x84f,0x84c,0x84c,";
"    0x84c,0x84c,0x84c,0x852,0x84c,0x852,0x84c,0x852,0x84c,0x84c,0x84c,0x84c,0x84c,0x84c,0x852,0x84c,";
"    0x84c,0x84c,0x84c,0x84c,0x84f,0x852,0x852,0x84f,0x84f,0x84f,0x84f,0x921,0x924,0x855,0x858,0xc96,";
"    0x85e,0x85e,0x85e,0x85e,0x85e,0x85e,0x85e,0x85e,0x85e,0x85e,0x85e,0x85e,0x85e,0x85e,0x85e,0x85e,";
"    0x85e,0x85e,0x85e,0x85e,0x85e,0x85e,0x85e,0x85e,0x85e,0x85e,0x85e,0x85e,0x85e,0x85e,0x85e,0x85e,";
"    0x861,0x85e,0x85e,0x85e,0x85e,0x85e,0x85e,0x85e,0x85e,0x85e,0x85e,0x85e,0x85e,0x85e,0x85e,0x85e,";
"    0x85e,0x85e,0x85e,0x85e,0x85e,0x85e,0x85e,0x85e,0x85e,0x85e,0x85e,0x85e,0x86a,0x86a,0x86a,0x86a,";
"    0x86a,0x86a,0x86a,0x86a,0x86a,0x86a,0x86a,0x86a,0x86a,0x86a,0x86a,0x86a,0x86a,0x86a,0x86a,0x86a,";
"    0x86a,0x86a,0x86a,0x86a,0x86a,0x86a,0x86a,0x86a,0xd9b,0xd9b,0xeca,0x864,0x92d,0x92d,0x92d,0x92d,";
"    0x92d,0x92d,0x92d,0x92d,0x92d,0x92d,0x92d,0x92d,0xd95,0xd95,0xd95,0xd95,0x86d,0x86d,0x86d,0x86d,";
"    0x86d,0x86d,0x86d,0x86d,0x86d,0x86d,0x86d,0x86d,0x86d,0x86d,0x86d,0x86d,0x86d,0x86d,0x86d,0x86d,";
"    0x86d,0x86d,0x86d,0x86d,0x86d,0x86d,0x86d,0x86d,0x86d,0x86d,0x86d,0x1ab2,0x936,0x936,0x936,0x936,";
"    0x936,0x936,0x936,0x936,0x936,0x936,0x936,0x936,0x936,0x936,0x936,0x936,0x936,0x870,0x870,0x870,";
"    0x870,0x870,0x870,0xd9e,0xd9e,0xd9e,0xd9e,0x939,0x939,0x939,0x939,0x939,0x870,0x870,0x870,0x870,";
"    0x870,0x870,0x870,0x870,0x870,0x870,0x870,0x870,0x870,0x870,0x870,0x870,0x870,0x870,0x870,0x870,";
"    0x870,0x870,0x870,0x870,0x870,0x870,0x870,0x870,0x870,0x870,0x870,0x870,0x870,0x870,0xd9e,0xd9e,";
"    0x873,0x873,0x873,0x873,0x873,0x873,0x873,0x873,0x873,0x873,0x873,0x873,0x873,0x873,0x873,0x873,";
"    0x873,0x873,0x873,0x873,0x873,0x873,0x873,0x873,0x873,0x873,0x873,0x873,0x873,0x873,0x873,0x873,";
"    0x936,0x936,0x936,0x936,0x936,0x936,0x936,0x936,0x876,0x876,0x876,0x876,0x876,0x876,0x876,0x876,";
"    0x876,0x876,0x876,0x876,0x876,0x876,0x876,0x876,0x876,0x876,0x876,0x876,0x876,0x876,0x876,0x876,";
"    0x876,0x876,0x876,0x876,0x876,0x876,0x876,0x876,0x876,0x876,0xecd,0xecd,0xecd,0xecd,0xecd,0xecd,";
"    0xecd,0xecd,0xecd,0xecd,0xecd,0xecd,0xecd,0xecd,0xecd,0xecd,0xecd,0xecd,0xecd,0xecd,0xecd,0xecd,";
"    0x113d,0x113d,0x113d,0x113d,0x879,0x879,0x879,0x879,0x879,0x879,0x879,0x879,0x879,0x879,0x879,0x879,";
"    0x879,0x879,0x879,0x879,0x879,0x879,0x879,0x879,0x879,0x879,0x879,0x879,0x879,0x879,0x879,0x879,";
"    0x879,0x879,0x879,0x879,0x879,0x879,0x87c,0x87c,0x879,0x87c,0x879,0x87c,0x87c,0x879,0x879,0x879,";
"    0x879,0x879,0x879,0x879,0x879,0x879,0x879,0x87c,0x879,0x87c,0x879,0x87c,0x87c,0x879,0x879,0x87c,";
"    0x87c,0x87c,0x879,0x879,0x879,0x879,0x14e5,0x14e5,0xc9f,0xc9f,0xc9f,0xc9f,0xc9f,0xc9f,0xc9f,0xc9f,";
"    0xc9f,0xc9f,0xc9f,0xc9f,0xc9f,0xc9f,0xc9f,0xc9f,0x92d,0x92d,0x92d,0x92d,0x92d,0x92d,0x92d,0x92d,";
"    0x92d,0x92d,0x92d,0x92d,0x92d,0x92d,0x92d,0x92d,0x92d,0x92d,0x92d,0x92d,0x92d,0x92d,0x92d,0x92d,";
"    0x92d,0x92d,0x92d,0x92d,0x92d,0x92d,0x92d,0x92d,0x131d,0x131d,0x131d,0x131d,0x12bd,0x12bd,0x12bd,0x12bd,";
"    0x12bd,0x12bd,0x12bd,0x12bd,0xd95,0xc99,0xc99,0xc99,0xc99,0xc99,0xc99,0xc99,0xc99,0xc99,0xc99,0xc99,";
"    0xc99,0xc99,0xc99,0xc99,0x930,0x930,0x930,0x930,0x930,0x930,0x930,0x930,0x930,0x930,0x930,0x930,";
"    0x930,0x930,0x930,0x930,0x930,0x930,0x930,0x930,0x930,0x930,0x930,0x933,0x930,0x933,0x930,0x930,";
"    0x930,0x930,0x930,0x930,0x930,0x930,0x930,0x930,0x930,0x930,0x930,0x930,0x930,0x930,0x930,0x930,";
"    0x930,0xc99,0xc99,0xc99,0xc99,0xc99,0xc99,0xc99,0xc99,0xc99,0xc99,0xc99,0xc99,0xc99,0xc99,0xc99,";
"    0x936,0x936,0x936,0x936,0x936,0x936,0x936,0x936,0x936,0x936,0x936,0x936,0x936,0x936,0x936,0x936,";
"    0x936,0x936,0x936,0x936,0x936,0x936,0x936,0x936,0x936,0x936,0x936,0x936,0x936,0x936,0x936,0xd9e,";
"    0x9b7,0x999,0x999,0x999,0x999,0x993,0x999,0x999,0x9ab,0x999,0x999,0x996,0x9a2,0x9a8,0x9a8,0x9a8,";
"    0x9a8,0x9a8,0x9ab,0x993,0x99f,0x993,0x993,0x993,0x98a,0x98a,0x993,0x993,0x993,0x993,0x993,0x993,";
"    0x9ae,0x9ae,0x9ae,0x9ae,0x9ae,0x9ae,0x9ae,0x9ae,0x9ae,0x9ae,0x993,0x993,0x993,0x993,0x993,0x993,";
"    0x993,0x993,0x993,0x993,0x996,0x98a,0x993,0x98a,0x993,0x98a,0x9a5,0x99c,0x9a5,0x99c,0x9b4,0x9b4,";
"    0x9c3,0x9c3,0x9c3,0x9c3,0x9c3,0x9c3,0x9c3,0x9c3,0x9c3,0x9c3,0x9c3,0x9c3,0x9c3,0x9c3,0x9c3,0x9c3,";
"    0x9c3,0x9c3,0x9c3,0x9c3,0x9c3,0x9c3,0x9c3,0x9c3,0x9c3,0x9c3,0x9c3,0x9c3,0x9c3,0x9c3,0x9c3,0x9c3,";
"    0x9c6,0x9c6,0x9c6,0x9c6,0x9c6,0x9c6,0x9c6,0x9c6,0x9c6,0x9c6,0x9c6,0x9c6,0x9c6,0x9c6,0x9c6,0x9c6,";
"    0x9c6,0x9c6,0x9c6,0x9c6,0x9c6,0x9c6,0x9c6,0x9c6,0x9c6,0x9c6,0x9c6,0x9c6,0x9c6,0x9c6,0x9c6,0x9c6,";
"    0x9c9,0x9c9,0x9c9,0x9c9,0x9c9,0x9c9,0x9c9,0x9c9,0x9c9,0x9c9,0x9c9,0x9c9,0x9c9,0x9c9,0x9c9,0x9c9,";
"    0x9c9,0x9c9,0x9c9,0x9c9,0x9c9,0x9c9,0x9c9,0x9c9,0x9c9,0x9c9,0x9c9,0x9c9,0x9c9,0x9c9,0x9c9,0x9c9,";
"    0x9d2,0x9d2,0x9d2,0x9d2,0x9d2,0x9d2,0x9d2,0x9d2,0x9d2,0x9d2,0x9d2,0x9d2,0x9d2,0x9d2,0x9d2,0x9d2,";
"    0x9d2,0x9d2,0x9d2,0x9d2,0x9d2,0x9d2,0x9d2,0x9d2,0x9d2,0x9d2,0x9d2,0x9d2,0x9d2,0x9d2,0x9cc,0x9cc,";
"    0x9d5,0x9d5,0x9d5,0x9d5,0x9d5,0x9d5,0x9d5,0x9d5,0x9d5,0x9d5,0x9d5,0x9d5,0x9d5,0x9d5,0x9d5,0x9d5,";
"    0x9d5,0x9d5,0x9d5,0x9d5,0x9d5,0x9d5,0x9d5,0x9d5,0x9d5,0x9d5,0x9d5,0x9d5,0x9d5,0x9d5,0x9cf,0x9cf,";
"    0x9d2,0x9d2,0x9d2,0x9d2,0x9d2,0x9d2,0x9d2,0x9d2,0x9d2,0x9d2,0x9d2,0x9d2,0x9d2,0x9d2,0x9d2,0x9d2,";
"    0x9d2,0x9d2,0x9d2,0x9d2,0x9d2,0x9d2,0x9d2,0x9d2,0x9d2,0x9d2,0x9d2,0x9d2,0x9d2,0x9d2,0x9d2,0x9d2,";
"    0x9d5,0x9d5,0x9d5,0x9d5,0x9d5,0x9d5,0x9d5,0x9d5,0x9d5,0x9d5,0x9d5,0x9d5,0x9d5,0x9d5,0x9d5,0x9d5,";
"    0x9d5,0x9d5,0x9d5,0x9d5,0x9d5,0x9d5,0x9d5,0x9d5,0x9d5,0x9d5,0x9d5,0x9d5,0x9d5,0x9d5,0x9d5,0x9d5,";
"    0x9d8,0x9db,0x9db,0x9db,0x9db,0x9db,0x9db,0x9db,0x9db,0x9db,0x9db,0x9db,0x9db,0x9db,0x9db,0x9db,";
"    0x9db,0x9db,0x9db,0x9db,0x9db,0x9db,0x9db,0x9db,0x9db,0x9db,0x9db,0x9db,0x9d8,0x9db,0x9db,0x9db,";
"    0x9db,0x9db,0x9db,0x9db,0x9db,0x9db,0x9db,0x9db,0x9db,0x9db,0x9db,0x9db,0x9db,0x9db,0x9db,0x9db,";
"    0x9db,0x9db,0x9db,0x9db,0x9db,0x9db,0x9db,0x9db,0xa68,0xa68,0xfff,0xa68,0xa68,0xa68,0xa6b,0xa68,";
"    0xfff,0xa68,0xa68,0xff6,0xa62,0xa56,0xa56,0xa56,0xa56,0xa65,0xa56,0xfe7,0xfe7,0xfe7,0xa56,0xa59,";
"    0xa62,0xa5c,0xfed,0xff9,0xff9,0xfe7,0xfe7,0xfff,0xb61,0xb61,0xb61,0xb61,0xb61,0xb61,0xb61,0xb61,";
"    0xb61,0xb61,0xa6e,0xa6e,0xa5f,0xa5f,0xa5f,0xa5f,0xa68,0xa68,0xa68,0xa68,0xa68,0xa68,0xa65,0xa65,";
"    0xa56,0xa56,0xfff,0xfff,0xfff,0xfff,0xfe7,0xfe7,0xa68,0xa68,0xa68,0xa68,0xa68,0xa68,0xa68,0xa68,";
"    0xa68,0xa68,0xa68,0xa68,0xa68,0xa68,0xa68,0xa68,0xa68,0xa68,0xa68,0xa68,0xa68,0xa68,0xa68,0xa68,";
"    0xa68,0xa68,0xa68,0xa68,0xa68,0xa68,0xa68,0xa68,0xa7d,0xa7d,0xa7d,0xa7d,0xa7d,0xa7d,0xa7d,0xdf2,";
"    0xa7d,0xa7d,0xa7d,0xa7d,0xa7d,0xa7d,0xa7d,0xa7d,0xa7d,0xa7d,0xa7d,0xa7d,0xa7d,0xa7d,0xa7d,0xa7d,";
"    0xa7d,0xa7d,0xa7d,0xa7d,0xa7d,0xa7d,0xa7d,0xa7d,0xa7d,0xa7d,0xa7d,0xa7d,0xa7d,0xa7d,0xa7d,0xa7d,";
"    0xa7d,0xa7d,0xa7d,0xdf2,0xa7d,0xa7d,0xa7d,0xa7d,0xa7d,0xa7d,0xa7d,0xa7d,0xa7d,0xa7d,0xa7d,0xa7d,";
"    0xa7d,0xa7d,0xa7d,0xa7d,0xa83,0xa83,0xa83,0xa83,0xa83,0xa83,0xa83,0xa83,0xa83,0xa83,0xa83,0xa83,";
"    0xa83,0xa83,0xa83,0xa83,0xa83,0xa83,0xa83,0xa83,0xa83,0xa83,0xa83,0xa83,0xa83,0xa83,0xa83,0xa83,";
"    0xa83,0xa83,0xa83,0xa83,0xa89,0xa89,0xa89,0xa89,0xa89,0xa89,0xa89,0xa89,0xa89,0xa89,0xa89,0xa89,";
"    0xa89,0xa86,0xa8c,0xa89,0xa89,0xa89,0xa89,0xa89,0xa89,0xa89,0xa89,0x1176,0x1176,0x1176,0x1176,0x1176,";
"    0x1176,0x1176,0x1176,0x1176,0x1173,0xa89,0xa89,0xa89,0xa89,0xa89,0xa89,0xa89,0xa89,0xa89,0xa89,0xa89,";
"    0xa89,0xa89,0xa89,0xa89,0xa89,0xa89,0xa89,0xa89,0xa89,0xa89,0xa89,0xa89,0xa89,0xa89,0xa89,0xa89,";
"    0xa89,0xa89,0xa89,0xa89,0xa89,0xa89,0xa89,0xa89,0xa9e,0xa9e,0xa9e,0xa9e,0xa9e,0xa9e,0xa9e,0xa9e,";
"    0xa9e,0xa9e,0xa9e,0xa9e,0xa9e,0xa9e,0xa9e,0xa9e,0xa9e,0xa9e,0xa9e,0xa9e,0xa9e,0xa9e,0xa9e,0xa9e,";
"    0xa9e,0xa9e,0xa9e,0xa9e,0xa9e,0xa9e,0xa9e,0xa9e,0xac2,0xac2,0xac2,0xac5,0xac5,0xac2,0xac2,0xac2,";
"    0xac2,0xac2,0xac2,0xac2,0xac2,0xac2,0xac2,0xac2,0xac2,0xac2,0xac2,0xac2,0xaaa,0xaaa,0xabf,0xaa1,";
"    0xaa1,0xaa1,0xaa1,0xaa1,0xaa1,0xaa1,0xabf,0xabf,0xac2,0xac2,0xac2,0xac2,0xac2,0xac2,0xac2,0xac2,";
"    0xac2,0xac2,0xac2,0xac2,0xac2,0xac2,0xac2,0xac2,0xac2,0xac2,0xac2,0xac2,0xac2,0xac2,0xac2,0xac2,";
"    0xac2,0xac2,0xac2,0xac2,0xac2,0xac2,0xac2,0xac2,0xae3,0xae3,0xae3,0xae3,0xae3,0xace,0xace,0xae3,";
"    0xae3,0xae3,0xae3,0xae3,0xae3,0xae3,0xae3,0xae3,0xae3,0xae3,0xae3,0xae3,0xae3,0xae3,0xae3,0xae3,";
"    0xae3,0xae3,0xae3,0xae3,0xae3,0xae3,0xae3,0xae3,0xae3,0xae3,0xae3,0xae3,0xae3,0xae3,0xae3,0xae3,";
"    0xae3,0xae3,0xae3,0xae6,0xae3,0xae3,0xae3,0xae3,0xae3,0xae3,0xae3,0xae3,0xae3,0xae3,0xae3,0xae3,";
"    0xae3,0xae3,0xae3,0xae3,0xae3,0xae3,0xae3,0xae3,0xae3,0xae3,0xae3,0xae3,0xae3,0xae3,0xae3,0xae3,";
"    0xb0d,0xb0d,0xb0d,0xb0d,0xb0d,0xb0d,0xb0d,0xb0d,0xb10,0xb0d,0xb0d,0xb0d,0xb0d,0xb0d,0xb0d,0xb0d,";
"    0xb0d,0xb0d,0xb0d,0xb0d,0xb0d,0xb0d,0xb0d,0xb0d,0xb0d,0xb0d,0xb0d,0xc06,0xc06,0xc06,0xc06,0xc06,";
"    0xb1c,0xb1c,0xb1c,0xb1c,0xb1c,0xb1c,0xb1c,0xb1c,0xb1c,0xb1c,0xb1c,0xb1c,0xb1c,0xb1c,0xb1c,0xb1c,";
"    0xb1c,0xb1c,0xb1c,0xb1c,0xb1c,0xb1c,0xb1c,0xb1c,0xb1c,0xb1c,0xb1c,0xb1c,0xb1c,0xb1c,0xb1c,0xb1c,";
"    0xb2e,0xb2e,0xb2e,0xb2e,0xb2e,0xb2e,0xb2e,0xb2e,0xb2e,0xb2e,0xb2e,0xb2e,0xb2e,0xb2e,0xb2e,0xb2e,";
"    0xb2e,0xb2e,0xb2e,0xb2e,0xb2e,0xb2e,0xb2e,0xb2e,0xb2e,0xb2e,0xb2e,0xb2e,0xb2e,0xb2e,0xb2e,0xb2e,";
"    0xb34,0xb34,0xb34,0xb34,0xb34,0xb34,0xb34,0xb34,0xb34,0xb34,0xb34,0xb34,0xb34,0xb34,0xb34,0xb34,";
"    0xb34,0xb34,0xb34,0xb34,0xb34,0xb34,0xb34,0xb34,0xb34,0xb34,0xb34,0xb34,0xb34,0xb34,0xb34,0xb34,";
"    0xb40,0xb40,0xb40,0xb40,0xb40,0xb40,0xb40,0xb40,0xb40,0xb40,0xb40,0xb40,0xb40,0xb40,0xb40,0xb40,";
"    0xb40,0xb40,0xb40,0xb40,0xb40,0xb40,0xb40,0xb40,0x13ec,0x13ec,0x13ec,0x1b2d,0x1b2d,0x1b2d,0x1b2d,0x1b2d,";
"    0xb43,0xb43,0xb43,0xb43,0xb43,0xb43,0xb43,0xb43,0xb43,0xb43,0xb43,0xb43,0xb43,0xb43,0xb43,0xb43,";
"    0xb43,0xb43,0xb43,0xb43,0xb43,0xb43,0xb43,0xb43,0xb43,0xb43,0xb43,0xb43,0xb43,0xb43,0xb43,0xb43,";
"    0xb43,0xb43,0x1b30,0x1b30,0x1b30,0x1b30,0x1b30,0x1b30,0x1b30,0x1b30,0x1b30,0x1b30,0xb46,0xb46,0xb46,0xb46,";
"    0xb46,0xb46,0xb46,0xb46,0xb46,0xb46,0xb46,0xb46,0xb46,0xb46,0xb46,0xb46,0xb46,0xb46,0xb46,0xb46,";
"    0xb46,0xb49,0xb46,0xb46,0xb46,0xb46,0xb46,0xb46,0xb46,0xb46,0xb46,0xb46,0xb46,0xb46,0xb46,0xb46,";
"    0xb46,0xb46,0xb46,0xb46,0xb46,0xb46,0xb46,0xb46,0xb46,0xb46,0xb46,0xb46,0xb46,0xb46,0xb46,0xb46,";
"    0xb46,0xb46,0xb46,0xb46,0xb4c,0xb4c,0xc9c,0xc9c,0xb4c,0xb4c,0xb4c,0xb4c,0xb4c,0xb4c,0xb4c,0xb4c,";
"    0xb4c,0xb4c,0xb4c,0xb4c,0xb4c,0xb4c,0xb4c,0xb4c,0xc9c,0xb4c,0xb4c,0xb4c,0xb4c,0xb4c,0xb4c,0xb4c,";
"    0xb4c,0xb4c,0xb4c,0xb4c,0xb70,0xb70,0xb70,0xb70,0xb70,0xb70,0xb70,0xb70,0xb70,0xb70,0xb70,0xb70,";
"    0xb70,0xb70,0xb70,0xb70,0xb70,0xb70,0xb70,0xb70,0xb70,0xb70,0xb70,0xb70,0xb70,0xb70,0xb70,0xb70,";
"    0xb70,0xb70,0xb70,0x1530,0xb79,0xb79,0xb79,0xb79,0xb79,0xb79,0xd26,0xd26,0xb76,0xb76,0xb76,0xb76,";
"    0xb76,0xb76,0xb76,0xb76,0xb76,0xb76,0xb76,0xb76,0xb76,0xb76,0xb76,0xb76,0xb76,0xb76,0xb76,0xb76,";
"    0xb76,0xb76,0xb76,0xb76,0xb76,0xb76,0xd23,0xd23,0xd74,0xd74,0xd74,0xd74,0xd74,0xd74,0xd74,0xd74,";
"    0xd74,0xd74,0xd74,0xd74,0xd74,0xd74,0xd74,0xd74,0xb79,0xb79,0xb79,0xb79,0xb79,0xb79,0xb79,0xb79,";
"    0xb79,0xb79,0xb79,0xb79,0xb79,0xb79,0xb79,0xb79,0xb79,0xb79,0xb79,0xb79,0xb79,0xb79,0xb79,0xb79,";
"    0xb79,0xb79,0xb79,0xb79,0xb79,0xb79,0xb79,0xb79,0xb7c,0xb7c,0xb7c,0xb7c,0xb7c,0xb7c,0xb7c,0xb7c,";
"    0xb7c,0xb7c,0xb7c,0xb7c,0xb7c,0xb7c,0xb7c,0xb7c,0xb7c,0xb7c,0xb7c,0xb7c,0xb7c,0xb7c,0xb7c,0xb7c,";
"    0xb7c,0xb7c,0xb7c,0xb7c,0xb7c,0xb7c,0xb7c,0xb7c,0xb8b,0xb8b,0xb8b,0xb8b,0xb8b,0xb82,0xb8e,0xb94,";
"    0xb94,0xb94,0xb88,0xb88,0xb88,0xb91,0xb85,0xb85,0xb85,0xb85,0xb85,0xb7f,0xb7f,0xb7f,0xb7f,0xb7f,";
"    0xb7f,0xb7f,0xb7f,0xb94,0xb94,0xb94,0xb94,0xb94,0xb88,0xb88,0xb88,0xb88,0xb88,0xb88,0xb88,0xb88,";
"    0xb88,0xb88,0xb88,0xb88,0xb88,0xb88,0xb88,0xb88,0xb88,0xb88,0xb88,0xb88,0xb88,0xb88,0xb88,0xb88,";
"    0xb88,0xb88,0xb88,0xb88,0xb88,0xb88,0xb88,0xb88,0xb88,0xb88,0xb8b,0xb8b,0xb94,0xb94,0xb94,0xb88,";
"    0xb88,0xb94,0xb94,0xb94,0xb94,0xb94,0xb94,0xb94,0xb88,0xb88,0xb88,0xb88,0xb88,0xb88,0xb88,0xb88,";
"    0xb88,0xb88,0xb88,0xb88,0xb88,0xb88,0xb88,0xb88,0xb88,0xb88,0xb88,0xb88,0xb88,0xb88,0xb94,0xb94,";
"    0xb94,0xb94,0xb88,0xb88,0xb88,0xb88,0xb88,0xb88,0xb88,0xb88,0xb88,0xb88,0xb88,0xb88,0xb88,0xb8b,";
"    0xb8b,0xb8b,0xb8b,0xb8b,0xb8b,0xb88,0xb88,0xb88,0xb88,0xb88,0xb88,0xb88,0xb88,0xb88,0xb88,0xb88,";
"    0xb88,0xb88,0xb88,0xb88,0xb88,0xb88,0xb88,0xb88,0xb88,0xb88,0xb88,0xb88,0xb88,0xb88,0xb88,0xb88,";
"    0xb88,0xb88,0x173d,0x173d,0xba0,0xb97,0xb9d,0xb9d,0xb9d,0xb9d,0xb9d,0xb9d,0xb9d,0xb9d,0xb9d,0xb9d,";
"    0xb9d,0xb9d,0xb9d,0xb9d,0xb9d,0xb9d,0xb9d,0xb9d,0xb9d,0xb9d,0xb9d,0xb9d,0xb9d,0xb9d,0xb9d,0xb97,";
"    0xb9d,0xb9d,0xb9d,0xb9d,0xb9d,0xb9d,0xba0,0xba0,0xba0,0xba0,0xba0,0xba0,0xba0,0xba0,0xba0,0xba0,";
"    0xba0,0xba0,0xba0,0xba0,0xba0,0xba0,0xba0,0xba0,0xba0,0xba0,0xba0,0xba0,0xba0,0xba0,0xba0,0xb97,";
"    0xb9d,0xb9d,0xb9d,0xb9d,0xb9d,0xb9d,0xb9d,0xb9d,0xb9d,0xb9d,0xb9d,0xb9d,0xb9d,0xb9d,0xb9d,0xb9d,";
"    0xb9d,0xb9d,0xb9d,0xb9d,0xb9d,0xb97,0xb9d,0xb9d,0xb9d,0xb9d,0xb9d,0xb9d,0xba0,0xba0,0xba0,0xba0,";
"    0xba0,0xba0,0xba0,0xba0,0xba0,0xba0,0xba0,0xba0,0xba0,0xba0,0xba0,0xba0,0xba0,0xba0,0xba0,0xba0,";
"    0xba0,0xb97,0xb9d,0xb9d,0xb9d,0xb9d,0xb9d,0xb9d,0xb9d,0xb9d,0xb9d,0xb9d,0xb9d,0xb9d,0xb9d,0xb9d,";
"    0xb9d,0xb9d,0xb9d,0xb9d,0xb9d,0xb9d,0xb9d,0xb9d,0xb9a,0xb9a,0xb9a,0xb9a,0xb9a,0xb9a,0xb9a,0xb9a,";
"    0xb9a,0xb9a,0xb9a,0xb9a,0xb9a,0xb9a,0xb9a,0xb9a,0xb9a,0xb9a,0xb9a,0xb9a,0xb9a,0xb9a,0xb9a,0xb9a,";
"    0xb9a,0xb9a,0xb9a,0xb9a,0xb9a,0xb9a,0xb9a,0xb9a,0xba0,0xba0,0xba0,0xba0,0xba0,0xba0,0xba0,0xba0,";
"    0xba0,0xba0,0xba0,0xba0,0xba0,0xba0,0xba0,0xba0,0xba0,0xba0,0xba0,0xba0,0xba0,0xba0,0xba0,0xba0,";
"    0xba0,0xba0,0xb9d,0xb9d,0xb9d,0xb9d,0xb9d,0xb9d,0xb9d,0xb9d,0xb9d,0xb9d,0xb9d,0xb9d,0xb9d,0xb9d,";
"    0xb9d,0xb9d,0xb9d,0xb9d,0xb9d,0xb9d,0xb9d,0xb9d,0xba0,0xba0,0xba0,0xba0,0xba0,0xba0,0xba0,0xba0,";
"    0xba0,0xba0,0xba0,0xba0,0xba0,0xba0,0xba0,0xba0,0xba0,0xba0,0xba0,0xba0,0xba0,0xba0,0xba0,0xba0,";
"    0xba0,0xba0,0xb9d,0xb9d,0xb9d,0xb9d,0xb9d,0xb9d,0xb9d,0xb9d,0xb9d,0xb9d,0xb9d,0xb9d,0xb9d,0xb9d,";
"    0xb9d,0xb9d,0xb9d,0xb9d,0xb9d,0xb9d,0xb9d,0xb9d,0xb9d,0xb9d,0xb9d,0xb9d,0xba0,0xba0,0xba0,0xba0,";
"    0xba3,0xba3,0xba3,0xba3,0xba3,0xba3,0xba3,0xba3,0xba3,0xba3,0xba3,0xba3,0xba3,0xba3,0xba3,0xba3,";
"    0xba3,0xba3,0xba3,0xba3,0xba3,0xba3,0xba3,0xba3,0xba3,0xba3,0xba3,0xba3,0xba3,0xba3,0xba3,0xba3,";
"    0xba9,0xba9,0xba9,0xba9,0xba9,0xba9,0xba9,0xba9,0xba9,0xba9,0xba9,0xba9,0xba9,0xba9,0xba9,0xba9,";
"    0xba9,0xba9,0xba9,0xba9,0xba9,0xba9,0xba9,0xba9,0xba9,0xba9,0xba9,0xba9,0xba9,0xba9,0xba9,0xba9,";
"    0xbac,0xbac,0xbac,0xbac,0xbac,0xbac,0xbac,0xbac,0xbac,0xbac,0xbac,0xbac,0xbac,0xbac,0xbac,0xbac,";
"    0xbac,0xbac,0xbac,0xbac,0xbac,0xbac,0xbac,0xbac,0xbac,0xbac,0xbac,0xbac,0xbac,0xbac,0xbac,0xbac,";
"    0xc06,0xc06,0xc06,0xc06,0xc06,0xc06,0xc06,0xc06,0xc06,0xc06,0xc06,0xc06,0xc06,0xc06,0xc06,0xc06,";
"    0xc06,0xc06,0xc06,0xc06,0xc06,0xc06,0xc03,0xc06,0xc03,0xc03,0xc03,0xc03,0xc03,0xc03,0xc03,0xc03,";
"    0xc03,0xc03,0xc03,0xc03,0xc03,0xc03,0xc03,0xd14,0xd17,0xe0a,0xe0a,0xe0a,0xe0a,0xe0a,0xe0a,0xe0a,";
"    0xe0a,0xe0a,0xe0a,0xe0a,0xf24,0xf24,0xf24,0xf24,0xc18,0xc18,0xc18,0xc18,0xc18,0xc18,0xc12,0xc12,";
"    0xc12,0xc12,0xd1a,0xd1a,0xd1a,0xd1a,0xd1a,0xd1a,0xd1d,0xd1d,0xe10,0xec4,0xe10,0xe10,0xe10,0xe10,";
"    0xe0d,0xe10,0xe0d,0xe10,0xe10,0x1014,0x12ae,0x12ae,0xe19,0xe19,0xe19,0xe19,0xe19,0xe1f,0xe1c,0xf36,";
"    0xf36,0xf36,0xf36,0x142e,0x1026,0x142e,0x1374,0x1374,0xc4e,0xc4e,0xc4e,0xc4e,0xc4e,0xc4e,0xc4e,0xc4e,";
"    0xc4e,0xc4e,0xc4e,0xc4e,0xc4e,0xc4e,0xc4e,0xc4e,0xc4e,0xc4e,0xc81,0xc7e,0xc81,0xc7e,0xc81,0xc7e,";
"    0x1137,0x1134,0x102c,0x1029,0xc51,0xc51,0xc51,0xc51,0xc51,0xc51,0xc51,0xc51,0xc51,0xc51,0xc51,0xc51,";
"    0xc51,0xc51,0xc51,0xc51,0xc54,0xc54,0xc54,0xc54,0xc54,0xc54,0xc54,0xc54,0xc54,0xc54,0xc54,0xc54,";
"    0xc54,0xc54,0xc54,0xc54,0xc54,0xc54,0xc54,0xc54,0xc54,0xc54,0xc54,0xc54,0xc54,0xc54,0xc54,0xc54,";
"    0xc54,0xc54,0xc54,0xc54,0xc57,0xc57,0xc54,0xc54,0xc54,0xc54,0xc54,0xc54,0xc54,0xc54,0xc54,0xc54,";
"    0xc5a,0xc5a,0xc5a,0xc60,0xc5d,0xc87,0xc84,0xc60,0xc5d,0xc60,0xc5d,0xc60,0xc5d,0xc60,0xc5d,0xc60,";
"    0xc5d,0xc60,0xc5d,0xc60,0xc5d,0xc60,0xc5d,0xc60,0xc5d,0xc5a,0xc5a,0xc5a,0xc5a,0xc5a,0xc5a,0xc5a,";
"    0xc5a,0xc5a,0xc5a,0xc5a,0xc5a,0xc5a,0xc5a,0xc5a,0xc5a,0xc5a,0xc5a,0xc5a,0xc5a,0xc5a,0xc5a,0xc5a,";
"    0xc5a,0xc5a,0xc5a,0xc5a,0xc5a,0xc5a,0xc5a,0xc5a,0xc5a,0xc5a,0xc5a,0xc5a,0xc60,0xc5d,0xc60,0xc5d,";
"    0xc5a,0xc5a,0xc5a,0xc5a,0xc5a,0xc5a,0xc5a,0xc5a,0xc5a,0xc5a,0xc5a,0xc5a,0xc5a,0xc5a,0xc5a,0xc5a,";
"    0xc5a,0xc5a,0xc5a,0xc5a,0xc5a,0xc5a,0xc5a,0xc5a,0xc5a,0xc5a,0xc5a,0xc5a,0xc60,0xc5d,0xc5a,0xc5a,";
"    0xc63,0xc63,0xc63,0xc63,0xc63,0xc63,0xc63,0xc63,0xc63,0xc63,0xc63,0xc63,0xc69,0xc63,0xc63,0xc63,";
"    0xc63,0xc63,0xc63,0xc63,0xc63,0xc63,0xc63,0xc63,0xc63,0xc63,0xc63,0xc63,0xc63,0xc63,0xc63,0xc63,";
"    0xc63,0xc63,0xc63,0xc63,0xc63,0xc63,0xc63,0xc63,0xc63,0xc63,0xc63,0xc63,0xc63,0xc63,0xc63,0xc63,";
"    0xc69,0xc69,0xc69,0xc63,0xc63,0xc63,0xc63,0xc63,0xc63,0xc63,0xc63,0xc63,0xc63,0xc63,0xc63,0xc63,";
"    0xc63,0xc63,0xc63,0xc63,0xc63,0xc63,0xc63,0xc63,0xc63,0xc63,0xc63,0xc63,0xc63,0xc63,0xc63,0xc63,";
"    0xc66,0xc63,0xc63,0xc63,0xc9f,0xc9f,0xc9f,0xc9f,0xc9f,0xc9f,0xc9f,0xc9f,0xc9f,0xc9f,0xc9f,0xc9f,";
"    0xc9f,0xc9f,0xc9f,0xc9f,0xc9f,0xc9f,0xc9f,0xc9f,0xc9f,0xc9f,0xc9f,0xc9f,0xc9f,0xc9f,0xc9f,0xc9f,";
"    0xc9f,0xc9f,0xc9f,0xc9f,0xd20,0xd8f,0xe0d,0xe0d,0xe0d,0xe0d,0xe0d,0xe10,0xe0d,0xe0d,0xec4,0xec4,";
"    0xe0d,0xe0d,0xe0d,0xe0d,0xe10,0xe10,0xf27,0x1014,0x1014,0x1014,0x1014,0x1014,0x1014,0x1014,0x1014,0x1014,";
"    0x1014,0x12db,0x12db,0x12b1,0xd44,0xd44,0xd44,0xd44,0xd44,0xd44,0xd44,0xd44,0xd44,0xd44,0xd44,0xd44,";
"    0xd44,0xd44,0xd44,0xd44,0xd44,0xd44,0xd44,0xd44,0xd44,0xd44,0xd44,0xd44,0xd44,0xd44,0xd44,0xd44,";
"    0xd44,0xd44,0xd44,0xd44,0xd53,0xd53,0xd53,0xd53,0xd53,0xd53,0xd4a,0xd4a,0xd4a,0xd4a,0xd4a,0xd47,";
"    0xd5c,0xd5c,0xd5c,0xd56,0xd5c,0xd5c,0xd5c,0xd5c,0xd5c,0xd5c,0xd5c,0xd5c,0xd5c,0xd5c,0xd5c,0xd56,";
"    0xd5c,0xd5c,0xd5c,0xd5c,0xd50,0xd50,0xd59,0xd59,0xd59,0xd59,0xd4d,0xd4d,0xd4d,0xd4d,0xd4d,0xd53,";
"    0xe25,0xe25,0xe25,0xe25,0xe25,0xe25,0xe25,0xe25,0xe25,0xe25,0xe25,0xe25,0xe22,0xe25,0xe25,0xe25,";
"    0xe25,0xe25,0xe25,0xe25,0xd5c,0xd5c,0xd5c,0xd5c,0xd5c,0xd5c,0xd5c,0xd5c,0xd5c,0xd5c,0xd5c,0xd5c,";
"    0xd5c,0xd5c,0xd56,0xd5c,0xd5c,0xd5c,0xd5c,0xd5c,0xd5c,0xd5c,0xd5c,0xd5c,0xd5c,0xd5c,0xd5c,0xd5c,";
"    0xd5c,0xd50,0xd50,0xd50,0xd53,0xd53,0xd53,0xd53,0xd53,0xd53,0xd53,0xd53,0xd53,0xd53,0xd53,0xd53,";
"    0xd53,0xd53,0xd53,0xd53,0xd53,0xd53,0xd53,0xd53,0xd53,0xd53,0xd53,0xd53,0xd53,0xd53,0xd53,0xd53,";
"    0xd53,0xd53,0xd53,0xd53,0xd5f,0xd5f,0xd5f,0xd5f,0xd5f,0xd62,0xd62,0xd62,0xd5f,0xd5f,0xd5f,0xd5f,";
"    0xd5f,0xd5f,0xe28,0xe28,0xe28,0xe28,0xe28,0xe28,0xf39,0xf39,0xf39,0xf39,0xf39,0xf39,0xf39,0x1140,";
"    0x1140,0x102f,0x102f,0x102f,0xd65,0xd65,0xd65,0xd65,0xd65,0xd65,0xd65,0xd65,0xd65,0xd65,0xd65,0xd65,";
"    0xd65,0xd65,0xd65,0xd65,0xd65,0xd65,0xd65,0xd65,0xd65,0xd65,0xd65,0xd65,0xd65,0xd65,0xd65,0xd65,";
"    0xd65,0xd65,0xd65,0xd65,0xd6b,0xd6b,0xd6b,0xd6b,0xd6b,0xd6b,0xd6b,0xd6b,0xd6b,0xd6b,0xd6b,0xd6b,";
"    0xd6b,0xd6b,0xd6b,0xd6b,0xd6b,0xd6b,0xd6b,0xd6b,0xd6b,0xd6b,0xd6b,0xd6b,0xd6b,0xd6b,0xd6b,0xd6b,";
"    0xd6b,0xd6b,0xd6b,0xd6b,0xd74,0xd74,0xd74,0xd74,0xd74,0xd74,0xd74,0xd74,0xd74,0xd74,0xd74,0xd74,";
"    0xd74,0xd74,0xd74,0xd74,0xd74,0xd74,0xd74,0xd74,0xd74,0xd74,0xd74,0xd74,0xd74,0xd74,0xd74,0xd74,";
"    0xd74,0xd74,0xd74,0xd74,0xd80,0xd80,0xd80,0xd80,0xd80,0xd80,0xd80,0xd80,0xd80,0xd80,0xd80,0xd80,";
"    0xd80,0xd80,0xd80,0xd80,0xd80,0xd80,0xd80,0xd80,0xd80,0xd80,0xd80,0xd80,0xd80,0xd80,0xd80,0xd80,";
"    0xd80,0xd80,0xd80,0xd80,0xd8c,0xd8c,0xd8c,0xd8c,0xd8c,0xd8c,0xd8c,0xd8c,0xd8c,0xd8c,0xd8c,0xd8c,";
"    0xd8c,0xd8c,0xd8c,0xd8c,0xd8c,0xd8c,0xd8c,0xd8c,0xd8c,0xd8c,0xd8c,0xd8c,0xd8c,0xd8c,0xd8c,0xd8c,";
"    0xd8c,0xd8c,0xd8c,0xd8c,0xe2e,0xe2e,0xe2e,0xe2e,0xe2e,0xe2e,0xe2e,0xe2e,0xe2e,0xe2e,0xe2e,0xe2e,";
"    0xe2e,0xe2e,0xe2e,0xe2e,0xe2e,0xe2e,0xe2e,0xe2e,0xe2e,0xe2e,0xe2e,0xe2e,0xe2e,0xe2e,0xe2e,0xe2e,";
"    0xe2e,0xe2e,0xe2e,0xe2e,0xe34,0xe34,0xe34,0xe34,0xe34,0xe34,0xe34,0xe34,0xe34,0xe34,0xe34,0xe34,";
"    0xe34,0xe34,0xe34,0xe34,0xe34,0xe34,0xe34,0xe34,0xe34,0xe31,0xe31,0xe31,0xe31,0xe31,0xe31,0xe31,";
"    0xe31,0xe31,0xe31,0xe31,0xe34,0xe34,0xe34,0xe34,0xe34,0xe34,0xe34,0xe34,0xe34,0xe34,0xe34,0xe34,";
"    0xe34,0xe34,0xe34,0xe34,0xe34,0xe34,0xe34,0xe34,0xe34,0xe34,0xe34,0xe34,0xe34,0xe34,0xe34,0xe34,";
"    0xe34,0xe34,0xe34,0xe34,0xef4,0xef4,0xe46,0xe46,0xf3c,0xf3c,0xf3c,0xf3c,0xf3c,0xf3c,0xf3c,0x103b,";
"    0x103b,0x103b,0x103b,0x103b,0x1038,0x1038,0x1038,0x1038,0x1038,0x1038,0x1038,0x1038,0x1038,0x1038,0x1038,0x1038,";
"    0x1038,0x1038,0x1038,0x1038,0xe55,0xe52,0xe55,0xe52,0xe55,0xe52,0xe55,0xe52,0xe55,0xe52,0xe55,0xe52,";
"    0xe55,0xe52,0xe55,0xe52,0xe55,0xe52,0xe55,0xe52,0xe55,0xe52,0xe55,0xe52,0xe55,0xe52,0xe55,0xe52,";
"    0xe55,0xe52,0xe55,0xe52,0xe61,0xe61,0xe61,0xe61,0xe61,0xe61,0xe61,0xe61,0xe61,0xe61,0xe61,0xe61,";
"    0xe61,0xe61,0xe61,0xe61,0xe61,0xe61,0xe61,0xe61,0xe61,0xe61,0xe61,0xe61,0xe61,0xe61,0xe61,0xe61,";
"    0xe61,0xe61,0xe61,0xe61,0xe67,0xe67,0xe67,0xe67,0xe67,0xe67,0xe67,0xe67,0xe67,0xe67,0xe67,0xe67,";
"    0xe67,0xe67,0xe67,0xe67,0xe67,0xe67,0xe67,0xe67,0xe67,0xe67,0xe67,0xe67,0xe67,0xe67,0xe67,0xe67,";
"    0xe67,0xe67,0xe67,0xe67,0xeee,0xeee,0xeee,0xeee,0xeee,0xeee,0xeee,0xeee,0xe7f,0xe7f,0xe7f,0xe7f,";
"    0xe7f,0xe7f,0xe7f,0xe7f,0xe7f,0xe7f,0xe7f,0xe7f,0xe7f,0xe7f,0xe7f,0xf3f,0xf3f,0xf3f,0xf3f,0x103e,";
"    0x103e,0x103e,0x103e,0x103e,0xe88,0xe88,0xe88,0xe88,0xe88,0xe88,0xe88,0xe88,0xe88,0xe88,0xe88,0xe88,";
"    0xe88,0xe88,0xe88,0xe88,0xe88,0xe88,0xe88,0xe88,0xe88,0xe88,0xe88,0xe88,0xe88,0xe88,0xe88,0xe88,";
"    0xe88,0xe88,0xe88,0xe88,0xe91,0xe91,0xe91,0xe91,0xe91,0xe91,0xe91,0xe91,0xe91,0xe91,0xe91,0xe91,";
"    0xe91,0xe91,0xe91,0xe91,0xe91,0xe91,0xe91,0xe91,0xe91,0xe91,0xe91,0xe91,0xe91,0xe91,0xe91,0xe91,";
"    0xe91,0xe91,0xe91,0xe91,0xe9a,0xe9a,0xe9a,0xe9a,0xe9a,0xe9a,0xe9a,0xe9a,0xe9a,0xe9a,0xe9a,0xe9a,";
"    0xe9a,0xe9a,0xe9a,0xe9a,0xe9a,0xe9a,0xe9a,0xe9a,0xe9a,0xe9a,0xe9a,0xe9a,0xe9a,0xe9a,0xe9a,0xe9a,";
"    0xe9a,0xe9a,0xe9a,0xe94,0xe97,0xe97,0xe97,0xe97,0xe97,0xe97,0xe97,0xe97,0xe97,0xe97,0xe97,0xe97,";
"    0xe97,0xe97,0xe97,0xe97,0xe97,0xe97,0xe97,0xe97,0xe97,0xe97,0xe97,0xe97,0xe97,0xe97,0xe97,0xe9a,";
"    0xe9a,0xe9a,0xe9a,0xe9a,0xea3,0xea3,0xea3,0xea3,0xea3,0xea3,0xea3,0xea3,0xea3,0xea3,0xea3,0xea3,";
"    0xea3,0xea3,0xea0,0xea0,0xea0,0xea0,0xea0,0xea0,0xea0,0xea0,0xe9d,0xea6,0x104a,0x1044,0x1053,0x1041,";
"    0xea3,0xea3,0x1041,0x1041,0xeb5,0xeb5,0xea9,0xeb5,0xeb5,0xeb5,0xeac,0xeb5,0xeb5,0xeb5,0xeb5,0xea9,";
"    0xeb5,0xeb5,0xeb5,0xeb5,0xeb5,0xeb5,0xeb5,0xeb5,0xeb5,0xeb5,0xeb5,0xeb5,0xeb5,0xeb5,0xeb5,0xeb5,";
"    0xeb5,0xeb5,0xeb5,0xeb5,0xeb8,0xeb8,0xeb8,0xeb8,0xeb8,0xeb8,0xeb8,0xeb8,0xeb8,0xeb8,0xeb8,0xeb8,";
"    0xeb8,0xeb8,0xeb8,0xeb8,0xeb8,0xeb8,0xeb8,0xeb8,0xeb8,0xeb8,0xeb8,0xeb8,0xeb8,0xeb8,0xeb8,0xeb8,";
"    0xeb8,0xeb8,0xeb8,0xeb8,0xed0,0xed0,0xed0,0xed0,0xed0,0xed0,0xed0,0xed0,0xed0,0xed0,0xed0,0xed0,";
"    0xed0,0xed0,0xed0,0xed0,0xed0,0xed0,0xed0,0xed0,0xed0,0xed0,0xed0,0xed0,0xed0,0xed0,0xed0,0xed0,";
"    0xed0,0xed0,0xed0,0xed0,0xef1,0xef1,0xef1,0xef1,0xef1,0xef1,0xef1,0xef1,0xef1,0xef1,0xef1,0xef1,";
"    0xef1,0xef1,0xef1,0xef1,0x1149,0x1149,0x1149,0x1149,0x1149,0x1149,0x1149,0x1149,0x1149,0x1149,0x1149,0x1149,";
"    0x1149,0x1149,0x1149,0x1149,0xf24,0xf24,0xf24,0xf21,0xf21,0xf21,0xf21,0xf21,0x1182,0x13dd,0x13dd,0x13dd,";
"    0x13dd,0x135f,0x135f,0x135f,0x13e0,0x1362,0x1362,0x13e0,0x1524,0x1524,0x1524,0x1524,0x1527,0x1527,0x1527,0x17ee,";
"    0x17ee,0x17ee,0x17ee,0x18b4,0xf39,0xf39,0xf39,0xf39,0x102f,0x102f,0x102f,0x102f,0x102f,0x102f,0x102f,0x102f,";
"    0x102f,0x102f,0x102f,0x102f,0x1032,0x1032,0x1032,0x1032,0x1032,0x1032,0x1032,0x1032,0x1032,0x1032,0x1032,0x1032,";
"    0x1032,0x1032,0x1032,0x1032,0xf5a,0xf5a,0xf5a,0xf5a,0xf6c,0xf75,0xf78,0xf75,0xf78,0xf75,0xf78,0xf75,";
"    0xf78,0xf75,0xf78,0xf75,0xf75,0xf75,0xf78,0xf75,0xf75,0xf75,0xf75,0xf75,0xf75,0xf75,0xf75,0xf75,";
"    0xf75,0xf75,0xf75,0xf75,0xf75,0xf75,0xf75,0xf75,0xf75,0xf75,0xf75,0xf75,0xf5d,0xf5a,0xf5a,0xf5a,";
"    0xf5a,0xf5a,0xf5a,0xf6f,0xf5a,0xf6f,0xf6c,0xf6c,0xf81,0xf7e,0xf81,0xf81,0xf81,0xf7e,0xf7e,0xf81,";
"    0xf7e,0xf81,0xf7e,0xf81,0xf7e,0x1065,0x1065,0x1065,0x11a0,0x105c,0x1065,0x105c,0xf7e,0xf81,0xf7e,0xf7e,";
"    0x105c,0x105c,0x105c,0x105c,0x105f,0x1062,0x11a0,0x11a0,0xf84,0xf84,0x1077,0x106e,0x1077,0x106e,0x1077,0x106e,";
"    0x1077,0x106e,0x1077,0x106e,0x1077,0x106e,0x1077,0x106e,0x106e,0x106e,0x1077,0x106e,0x1077,0x106e,0x1077,0x106e,";
"    0x1077,0x106e,0x1077,0x106e,0x1077,0x106e,0x1077,0x106e,0xf8a,0xf8a,0xf8a,0xf8a,0xf8a,0xf8a,0xf8a,0xf8a,";
"    0xf8a,0xf8a,0xf8a,0xf8a,0xf8a,0xf8a,0xf8a,0xf8a,0xf8a,0xf8a,0xf8a,0xf8a,0xf8a,0xf8a,0xf8a,0xf8a,";
"    0xf8a,0xf8a,0xf8a,0xf8a,0xf8a,0xf8a,0xf8a,0xf8a,0xf99,0xf99,0xf99,0xf99,0xf99,0xf99,0xf99,0xf99,";
"    0xf99,0xf99,0xf99,0xf99,0xf99,0xf99,0xf99,0xf99,0xf99,0xf99,0xf99,0xf99,0xf99,0xf99,0xf99,0xf99,";
"    0xf99,0xf99,0xf99,0xf99,0xf99,0xf99,0xf99,0xf99,0xf99,0xf99,0xf99,0x1563,0x1563,0x1563,0x1563,0x1563,";
"    0x1563,0x1563,0x1563,0x1563,0x1563,0x1563,0x1563,0x1563,0x1563,0x1563,0x1563,0x1563,0xf9f,0xf9f,0xf9f,0xf9f,";
"    0xf9f,0xf9f,0xf9f,0xf9f,0xf9f,0xf9f,0xf9f,0xf9f,0xf9f,0xf9f,0xf9f,0xf9f,0xf9f,0xf9f,0xf9f,0xf9f,";
"    0xf9f,0xf9f,0xf9f,0xf9f,0xf9f,0xf9f,0xf9f,0xf9f,0xf9f,0xf9f,0xf9f,0xf9f,0xfe7,0xfff,0xff6,0xffc,";
"    0xffc,0xfff,0xfff,0xff6,0xff6,0xffc,0xffc,0xffc,0xffc,0xffc,0xfff,0xfff,0xfff,0xfe7,0xfe7,0xfe7,";
"    0xfe7,0xfff,0xfff,0xfff,0xfff,0xfff,0xfff,0xfff,0xfff,0xfff,0xfff,0xfff,0xfff,0xfff,0xfe7,0xff6,";
"    0xff9,0xfe7,0xfe7,0xffc,0xffc,0xffc,0xffc,0xffc,0xffc,0xfea,0xfff,0xffc,0xff3,0xff3,0xff3,0xff3,";
"    0xff3,0xff3,0xff3,0xff3,0xff3,0xff3,0x116a,0x116a,0x1167,0x1164,0xff0,0xff0,0x1017,0x1017,0x1017,0x1017,";
"    0x12db,0x12db,0x12b1,0x12b1,0x12b7,0x12ae,0x12ae,0x12ae,0x12ae,0x12b1,0x13e3,0x12b7,0x12b1,0x12b7,0x12ae,0x12b7,";
"    0x12db,0x12ae,0x12ae,0x12ae,0x12b1,0x12b1,0x12ae,0x12ae,0x12b1,0x12ae,0x12ae,0x12b1,0x1032,0x1032,0x1032,0x1032,";
"    0x1032,0x102f,0x102f,0x1032,0x1032,0x1032,0x1032,0x1032,0x1032,0x153c,0x153c,0x153c,0x1140,0x102f,0x102f,0x102f,";
"    0x102f,0x12e7,0x12c0,0x12c0,0x12c0,0x12c0,0x153c,0x153c,0x153c,0x153c,0x153c,0x153c,0x1050,0x1050,0x104d,0x1047,";
"    0x104d,0x1047,0x104d,0x1047,0x104d,0x1047,0x1044,0x1044,0x1044,0x1044,0x1059,0x1056,0x1044,0x119d,0x143a,0x143d,";
"    0x143d,0x143a,0x143a,0x143a,0x143a,0x143a,0x1440,0x1440,0x1557,0x154b,0x154b,0x1548,0x1077,0x106e,0x1077,0x106e,";
"    0x1077,0x106e,0x1077,0x106e,0x106b,0x1068,0x1068,0x1077,0x106e,0x1383,0x1380,0x1746,0x1383,0x1380,0x1449,0x1446,";
"    0x155a,0x155a,0x1560,0x155a,0x1560,0x155a,0x1560,0x155a,0x1560,0x155a,0x1560,0x155a,0x1077,0x106e,0x1077,0x106e,";
"    0x1077,0x106e,0x1077,0x106e,0x1077,0x106e,0x1077,0x106e,0x1077,0x106e,0x1077,0x106e,0x1077,0x106e,0x1077,0x106e,";
"    0x1077,0x106e,0x1077,0x106e,0x1077,0x106e,0x1077,0x106e,0x1077,0x106e,0x1077,0x106e,0x1071,0x106e,0x106e,0x106e,";
"    0x106e,0x106e,0x106e,0x106e,0x106e,0x1077,0x106e,0x1077,0x106e,0x1077,0x1077,0x106e,0x107a,0x107a,0x1080,0x1086,";
"    0x1086,0x1086,0x1086,0x1086,0x1086,0x1086,0x1086,0x1086,0x1086,0x1086,0x1086,0x1086,0x1086,0x1086,0x1086,0x1086,";
"    0x1086,0x1086,0x1086,0x1086,0x1086,0x1086,0x1086,0x1086,0x1086,0x1086,0x1086,0x1086,0x1086,0x1080,0x107a,0x107a,";
"    0x107a,0x107a,0x1080,0x1080,0x107a,0x107a,0x1083,0x1452,0x144f,0x144f,0x1086,0x1086,0x107d,0x107d,0x107d,0x107d,";
"    0x107d,0x107d,0x107d,0x107d,0x107d,0x107d,0x1455,0x1455,0x1455,0x1455,0x1455,0x1455,0x109b,0x109b,0x109b,0x109b,";
"    0x109b,0x109b,0x109b,0x109b,0x109b,0x109b,0x109b,0x109b,0x109b,0x109b,0x109b,0x109b,0x109b,0x109b,0x109b,0x109b,";
"    0x109b,0x109b,0x109b,0x109b,0x109b,0x109b,0x109b,0x109b,0x109b,0x109b,0x109b,0x109b,0x10a4,0x10a4,0x10a4,0x10a4,";
"    0x10a4,0x10a4,0x10a4,0x10a4,0x10a4,0x10a4,0x10a4,0x10a4,0x10a4,0x10a4,0x10a4,0x10a4,0x10a4,0x10a4,0x10a4,0x10a4,";
"    0x10a4,0x10a4,0x10a4,0x10a4,0x10a7,0x10a7,0x10a7,0x10aa,0x10a7,0x10a7,0x10ad,0x10ad,0x10b0,0x10b0,0x10b0,0x10b0,";
"    0x10b0,0x10b0,0x10b0,0x10b0,0x10b0,0x10b0,0x10b0,0x10b0,0x10b0,0x10b0,0x10b0,0x10b0,0x10b0,0x10b0,0x10b0,0x10b0,";
"    0x10b0,0x10b0,0x10b0,0x10b0,0x10b0,0x10b0,0x10b0,0x10b0,0x10b0,0x10b0,0x10b0,0x10b0,0x10b9,0x10b9,0x10b9,0x10b9,";
"    0x10b9,0x10b9,0x10b9,0x10b9,0x10b9,0x10b9,0x10b9,0x10b9,0x10bc,0x10b3,0x10c2,0x10bf,0x10b9,0x10b9,0x10b9,0x10b9,";
"    0x10b9,0x10b9,0x10b9,0x10b9,0x10b9,0x10b9,0x10b9,0x10b9,0x10b9,0x10b9,0x10b9,0x10b9,0x10b9,0x10b9,0x10b9,0x10b9,";
"    0x10b9,0x10b9,0x10b9,0x10b9,0x10b9,0x10b9,0x10b9,0x10b9,0x10b9,0x10b9,0x10b9,0x10b9,0x1389,0x1386,0x10d4,0x10ce,";
"    0x10d4,0x10ce,0x10d4,0x10ce,0x10d4,0x10ce,0x10d4,0x10ce,0x10d4,0x10ce,0x10d1,0x1152,0x10c5,0x10c5,0x10c5,0x10cb,";
"    0x1458,0x1458,0x1458,0x1458,0x1458,0x1458,0x1458,0x1458,0x10c8,0x10c8,0x10cb,0x10d7,0x10d4,0x10ce,0x10d4,0x10ce,";
"    0x10d4,0x10ce,0x10d4,0x10ce,0x10d4,0x10ce,0x10d4,0x10ce,0x10d4,0x10ce,0x10d4,0x10ce,0x10d4,0x10ce,0x10d4,0x10ce,";
"    0x10d4,0x10ce,0x10d4,0x10ce,0x10d4,0x10ce,0x10d4,0x10ce,0x10d4,0x10ce,0x10d4,0x10ce,0x156f,0x156c,0x156f,0x156c,";
"    0x1572,0x1572,0x174f,0x1458,0x10e0,0x10e0,0x10e3,0x10e3,0x10e3,0x10e3,0x10e3,0x10e3,0x10e3,0x10e3,0x10e3,0x10e3,";
"    0x10e3,0x10e3,0x10e3,0x10e3,0x10e3,0x10e3,0x10e3,0x10e3,0x10e3,0x10e3,0x10e3,0x10e3,0x10e3,0x10e3,0x10e3,0x10e3,";
"    0x10e3,0x10e3,0x10e3,0x10e3,0x10e0,0x10e0,0x10e0,0x10e0,0x10e0,0x10e0,0x10e0,0x10e0,0x10e0,0x10e0,0x10e0,0x10e0,";
"    0x10f2,0x10f2,0x10f2,0x10f2,0x10f2,0x10f2,0x10e9,0x10e9,0x10e9,0x10e9,0x10e9,0x10ec,0x10ec,0x10ec,0x1146,0x10f5,";
"    0x1104,0x1104,0x1104,0x1104,0x1104,0x1104,0x1104,0x1104,0x1104,0x1104,0x1104,0x1104,0x1104,0x1104,0x1104,0x1104,";
"    0x10ef,0x10ef,0x10ef,0x10ef,0x10ef,0x10ef,0x10ef,0x10ef,0x10ef,0x10ef,0x10f2,0x10f2,0x10f2,0x10f2,0x10f2,0x10f2,";
"    0x10f2,0x10f2,0x10f2,0x10f2,0x10f2,0x10f2,0x10f2,0x10f2,0x10f2,0x10f2,0x10f2,0x10f2,0x10f2,0x10f2,0x10f2,0x10f2,";
"    0x1113,0x1113,0x1113,0x1113,0x1113,0x1113,0x1113,0x1113,0x1113,0x1113,0x1113,0x1113,0x1113,0x1113,0x1113,0x1113,";
"    0x1113,0x1113,0x1113,0x1113,0x1113,0x1113,0x1113,0x1113,0x1113,0x1113,0x1113,0x1113,0x1113,0x1113,0x1113,0x1113,";
"    0x1125,0x1125,0x1125,0x1125,0x1125,0x1125,0x1125,0x1125,0x1125,0x1125,0x1125,0x1125,0x1125,0x1125,0x1125,0x1125,";
"    0x1125,0x1125,0x1125,0x1125,0x1125,0x1125,0x1125,0x1125,0x1125,0x1125,0x1125,0x1125,0x1125,0x1125,0x1125,0x1125,";
"    0x112e,0x112e,0x112e,0x112e,0x1143,0x112e,0x112e,0x112e,0x112e,0x112e,0x112e,0x112e,0x112e,0x112e,0x112e,0x112e,";
"    0x112e,0x112e,0x112e,0x112e,0x112e,0x112e,0x112e,0x112e,0x112e,0x112e,0x112e,0x112e,0x112e,0x112e,0x112e,0x112e,";
"    0x1131,0x1131,0x1131,0x1131,0x1131,0x1131,0x1131,0x1131,0x1131,0x1131,0x1131,0x1131,0x1131,0x1131,0x1131,0x1131,";
"    0x1131,0x1131,0x1131,0x1131,0x1131,0x1131,0x1131,0x1131,0x1131,0x1131,0x1131,0x1131,0x1131,0x1131,0x1131,0x1131,";
"    0x113d,0x113d,0x113d,0x113d,0x12e1,0x12e1,0x12e1,0x12e1,0x12e1,0x12e1,0x12e1,0x12e1,0x14e2,0x17cd,0x17cd,0x17cd,";
"    0x17cd,0x17cd,0x17cd,0x17cd,0x17cd,0x17cd,0x191d,0x191d,0x191d,0x191d,0x191d,0x191d,0x191d,0x191d,0x191d,0x191d,";
"    0x11b2,0x11b2,0x11b2,0x11b2,0x11b2,0x11b2,0x11b2,0x11b2,0x11b2,0x11b2,0x11b2,0x11b2,0x11b2,0x11b2,0x11b2,0x11b2,";
"    0x11b2,0x11b2,0x11b2,0x11b2,0x11b2,0x11b2,0x11a9,0x11a9,0x11ac,0x11ac,0x11b2,0x11a9,0x11a9,0x11a9,0x11a9,0x11a9,";
"    0x11b8,0x11b8,0x11b8,0x11b8,0x11b8,0x11b8,0x11b8,0x11b8,0x11b8,0x11b8,0x11b8,0x11b8,0x11b8,0x11b8,0x11b8,0x11b8,";
"    0x11b8,0x11b8,0x11b8,0x11b8,0x11b8,0x11b8,0x11b8,0x11b8,0x11b8,0x11b8,0x11b8,0x11b8,0x11b8,0x11b8,0x11b8,0x11b8,";
"    0x11d3,0x11d3,0x11d3,0x11d3,0x11d3,0x11d3,0x11d3,0x11d3,0x11d3,0x11d3,0x11d3,0x11d3,0x11d3,0x11d3,0x11d3,0x11d3,";
"    0x11d3,0x11d3,0x11d3,0x11d3,0x11d3,0x11d3,0x11d3,0x11d3,0x11d3,0x11d3,0x11d3,0x11d3,0x11d3,0x11d3,0x11d3,0x11d3,";
"    0x11df,0x11df,0x11df,0x11df,0x11df,0x11df,0x11df,0x11df,0x11df,0x11df,0x11df,0x11df,0x11df,0x11df,0x11df,0x11df,";
"    0x11df,0x11df,0x11df,0x11df,0x11df,0x11df,0x11df,0x11df,0x11df,0x11df,0x11df,0x11df,0x11df,0x11df,0x11dc,0x11e2,";
"    0x11ee,0x11ee,0x11ee,0x11ee,0x11ee,0x11ee,0x11ee,0x11ee,0x11ee,0x11ee,0x11ee,0x11ee,0x11ee,0x11ee,0x11ee,0x11ee,";
"    0x11ee,0x11ee,0x11ee,0x11ee,0x11ee,0x11ee,0x11ee,0x11ee,0x11ee,0x11ee,0x11ee,0x11ee,0x11ee,0x11ee,0x11ee,0x11ee,";
"    0x11f4,0x11f4,0x11f4,0x11f4,0x11f4,0x11f4,0x11f4,0x11f4,0x11f4,0x11f4,0x11f4,0x11f4,0x11f4,0x11f4,0x11f4,0x11f4,";
"    0x11f4,0x132f,0x11fa,0x1332,0x11fa,0x11fa,0x11fa,0x11fa,0x11f7,0x11f7,0x11f7,0x11fa,0x1752,0x1755,0x197a,0x1977,";
"    0x11fd,0x11fd,0x11fd,0x120c,0x1212,0x1212,0x1212,0x1212,0x1212,0x1212,0x1212,0x1212,0x1212,0x1212,0x1212,0x1212,";
"    0x1212,0x1212,0x1212,0x1212,0x1212,0x1212,0x1212,0x1212,0x1212,0x1212,0x1212,0x1212,0x1212,0x1212,0x1212,0x1212,";
"    0x1212,0x1212,0x1212,0x1200,0x120c,0x120c,0x11fd,0x11fd,0x11fd,0x11fd,0x120c,0x120c,0x11fd,0x11fd,0x120c,0x120c,";
"    0x121e,0x121e,0x121e,0x121e,0x121e,0x121e,0x121e,0x121e,0x121e,0x121e,0x121e,0x121e,0x121e,0x121e,0x121e,0x121e,";
"    0x1221,0x121e,0x121e,0x121e,0x121e,0x121e,0x121e,0x1218,0x1218,0x1218,0x121e,0x121b,0x1578,0x157b,0x157e,0x157e,";
"    0x1230,0x1230,0x1230,0x1230,0x1230,0x1230,0x1230,0x1230,0x1230,0x1230,0x1230,0x1230,0x1230,0x1230,0x1230,0x1230,";
"    0x1224,0x1230,0x1224,0x1224,0x1224,0x1239,0x1239,0x1224,0x1224,0x1239,0x1230,0x1239,0x1239,0x1230,0x1224,0x1227,";
"    0x1230,0x1230,0x1230,0x1230,0x1230,0x1230,0x1230,0x1230,0x1230,0x1230,0x1230,0x1230,0x1230,0x1230,0x1230,0x1230,";
"    0x1230,0x1230,0x1230,0x1230,0x1230,0x1230,0x1230,0x1230,0x1230,0x1230,0x1230,0x1230,0x1230,0x1230,0x1230,0x1230,";
"    0x124b,0x124b,0x124b,0x124b,0x124b,0x124b,0x124b,0x124b,0x124b,0x124b,0x124b,0x124b,0x124b,0x124b,0x124b,0x124b,";
"    0x124b,0x124b,0x124b,0x124b,0x124b,0x124b,0x124b,0x124b,0x124b,0x124b,0x124b,0x124b,0x124b,0x124b,0x124b,0x124b,";
"    0x1263,0x1263,0x1263,0x1263,0x1263,0x1263,0x1263,0x1263,0x1263,0x1263,0x1263,0x1263,0x1263,0x1263,0x1263,0x1263,";
"    0x1263,0x1263,0x1263,0x1263,0x1263,0x1263,0x1263,0x1263,0x1263,0x1263,0x1263,0x1263,0x1263,0x1260,0x1260,0x1260,";
"    0x126c,0x126c,0x126c,0x126c,0x126c,0x126c,0x126c,0x126c,0x126c,0x126c,0x126c,0x126c,0x126c,0x126c,0x126c,0x126c,";
"    0x126c,0x126c,0x126c,0x126c,0x126c,0x126c,0x126c,0x126c,0x126c,0x126c,0x126c,0x126c,0x126c,0x126c,0x126c,0x126c,";
"    0x127b,0x127b,0x127b,0x127b,0x127b,0x127b,0x127b,0x127b,0x127b,0x127b,0x127b,0x127b,0x127b,0x127b,0x127b,0x127b,";
"    0x127b,0x127b,0x127b,0x127b,0x127b,0x127b,0x127b,0x127b,0x127b,0x127b,0x127b,0x127b,0x127b,0x127b,0x127b,0x127b,";
"    0x1281,0x1281,0x1290,0x1293,0x1293,0x1293,0x1293,0x1293,0x1293,0x1293,0x1293,0x1293,0x1293,0x1293,0x1293,0x1293,";
"    0x1293,0x1293,0x1293,0x1293,0x1293,0x1293,0x1293,0x1293,0x1293,0x1293,0x1296,0x1293,0x1296,0x1293,0x1293,0x1293,";
"    0x1293,0x1293,0x1293,0x1293,0x1293,0x1293,0x1293,0x1293,0x1293,0x1293,0x1293,0x1296,0x1293,0x1293,0x1293,0x1293,";
"    0x1290,0x1290,0x1290,0x1284,0x1284,0x1284,0x1284,0x1290,0x1290,0x128a,0x1287,0x128d,0x128d,0x129c,0x1299,0x1299,";
"    0x129f,0x129f,0x129f,0x129f,0x129f,0x129f,0x129f,0x129f,0x129f,0x129f,0x129f,0x129f,0x129f,0x129f,0x129f,0x129f,";
"    0x129f,0x129f,0x129f,0x129f,0x129f,0x129f,0x129f,0x129f,0x129f,0x129f,0x129f,0x129f,0x129f,0x129f,0x129f,0x129f,";
"    0x12a5,0x12a5,0x12a5,0x12a2,0x12a2,0x12a2,0x129f,0x129f,0x129f,0x129f,0x12a2,0x129f,0x129f,0x129f,0x12a5,0x12a2,";
"    0x12a5,0x12a2,0x129f,0x129f,0x129f,0x129f,0x129f,0x129f,0x129f,0x129f,0x129f,0x129f,0x129f,0x129f,0x129f,0x129f,";
"    0x129f,0x129f,0x129f,0x129f,0x129f,0x129f,0x129f,0x129f,0x129f,0x129f,0x129f,0x129f,0x129f,0x12a5,0x12a2,0x12a2,";
"    0x129f,0x129f,0x129f,0x129f,0x12c6,0x12c6,0x12c6,0x12c6,0x12c6,0x12c6,0x12c6,0x12c6,0x12c6,0x12c6,0x12c6,0x12c9,";
"    0x12c9,0x12c9,0x12a8,0x1980,0x13d7,0x12d2,0x13d7,0x13d7,0x13d7,0x13d7,0x13d7,0x13d7,0x13d7,0x13d7,0x13d7,0x13d7,";
"    0x13d7,0x12d2,0x13d7,0x12d2,0x12b1,0x12b1,0x1365,0x12ae,0x1365,0x1365,0x1365,0x1365,0x12ae,0x12b4,0x12db,0x12ae,";
"    0x12ae,0x12ae,0x12ae,0x12ae,0x12b4,0x12b7,0x12db,0x12db,0x12b7,0x12db,0x12ae,0x12b7,0x12b7,0x12ba,0x12db,0x12ae,";
"    0x12ae,0x12db,0x12b1,0x12b1,0x13d4,0x13d4,0x13d4,0x13d4,0x13d4,0x13d4,0x13d4,0x13d4,0x13d4,0x13d4,0x12c3,0x12c3,";
"    0x12c3,0x12c3,0x13ef,0x13ce,0x12cc,0x13ef,0x13ef,0x13ef,0x13ef,0x13ef,0x13ef,0x13ef,0x13ef,0x13ef,0x13ef,0x187e,";
"    0x187e,0x187e,0x187e,0x187e,0x12c6,0x12c6,0x12c6,0x12c6,0x12c6,0x12c6,0x12c6,0x12c6,0x12c6,0x12c6,0x12c6,0x1581,";
"    0x1581,0x1ad0,0x1ad0,0x1ad0,0x12c6,0x12c6,0x12c6,0x12c6,0x12c6,0x12c6,0x12c6,0x12c6,0x12c6,0x12c6,0x12c6,0x12c6,";
"    0x12c6,0x12c6,0x12c6,0x12c6,0x13d7,0x13d7,0x12d2,0x13d7,0x13d7,0x13d7,0x12d2,0x13d7,0x13d7,0x13d7,0x12cc,0x12cc,";
"    0x12cc,0x12cc,0x12cc,0x13d1,0x13d4,0x13d4,0x13d4,0x13d4,0x13d4,0x13d4,0x13d4,0x12cf,0x13d4,0x13d4,0x13d4,0x13d4,";
"    0x13d4,0x13d4,0x13d4,0x12cf,0x13d4,0x13d4,0x13d4,0x13d4,0x13d4,0x13d4,0x13d4,0x13d4,0x13d4,0x13d4,0x145b,0x145b,";
"    0x1a2e,0x1ad0,0x1ad0,0x1ad0,0x13da,0x13da,0x13d4,0x13d4,0x13d4,0x13d4,0x13d4,0x13d4,0x13d4,0x12cf,0x13d4,0x12cf,";
"    0x12cf,0x13d4,0x13da,0x12d5,0x12f9,0x12f9,0x12f9,0x12f9,0x12f9,0x12f9,0x12f9,0x12f9,0x12f9,0x12f9,0x12f9,0x12f9,";
"    0x12f9,0x12f9,0x12f9,0x12f9,0x12f9,0x12f9,0x12f9,0x12f9,0x12f9,0x12f9,0x12f9,0x12f9,0x12f9,0x12f9,0x12f9,0x12f9,";
"    0x12f9,0x12f9,0x12f9,0x12f9,0x1383,0x1380,0x1383,0x1380,0x1383,0x1380,0x1383,0x1380,0x1383,0x1380,0x1449,0x1560,";
"    0x1560,0x1560,0x17fa,0x196e,0x1560,0x1560,0x1749,0x1749,0x1749,0x1743,0x1749,0x1743,0x1971,0x196e,0x1a2b,0x1a28,";
"    0x1a2b,0x1a28,0x1a2b,0x1a28,0x13a7,0x13a7,0x13a7,0x13a7,0x13a7,0x13a7,0x13a7,0x13a7,0x13a7,0x13a7,0x13a7,0x13a7,";
"    0x13a7,0x13a7,0x13a7,0x13a7,0x13a7,0x13a7,0x13a7,0x13a7,0x13a7,0x13a7,0x13a7,0x13a7,0x13a7,0x13a7,0x13a7,0x13a7,";
"    0x13a7,0x13a7,0x13a7,0x13a7,0x13bc,0x13ad,0x13bc,0x13bf,0x13bf,0x13bf,0x13bf,0x13bf,0x13bf,0x13bf,0x13bf,0x13bf,";
"    0x13bf,0x13bf,0x13bf,0x13bf,0x13bf,0x13bf,0x13bf,0x13bf,0x13bf,0x13bf,0x13bf,0x13bf,0x13bf,0x13bf,0x13bf,0x13bf,";
"    0x13bf,0x13bf,0x13bf,0x13bf,0x13ad,0x13ad,0x13ad,0x13ad,0x13ad,0x13ad,0x13ad,0x13ad,0x13c5,0x13c5,0x13c5,0x13c5,";
"    0x13c5,0x13c5,0x13c5,0x13c5,0x13c5,0x13c5,0x13c5,0x13c5,0x13c5,0x13c5,0x13c5,0x13c5,0x13c5,0x13c5,0x13c5,0x13c5,";
"    0x13c5,0x13c5,0x13c5,0x13c5,0x13c5,0x13c5,0x13c5,0x13c5,0x13c5,0x13c5,0x13c5,0x13c5,0x13cb,0x13cb,0x13cb,0x13cb,";
"    0x13cb,0x13cb,0x13cb,0x13cb,0x13cb,0x13cb,0x13cb,0x13cb,0x13cb,0x13cb,0x13cb,0x13cb,0x13cb,0x13cb,0x13cb,0x13cb,";
"    0x13cb,0x13cb,0x13cb,0x13cb,0x13cb,0x13cb,0x13cb,0x13cb,0x13cb,0x13cb,0x13cb,0x13cb,0x13fb,0x13f8,0x1923,0x1923,";
"    0x1923,0x1923,0x1923,0x1923,0x1923,0x1923,0x1923,0x1923,0x1923,0x1923,0x1923,0x1923,0x1923,0x1923,0x1923,0x1923,";
"    0x1923,0x1923,0x1923,0x1923,0x1923,0x1923,0x1923,0x1923,0x1923,0x1923,0x1923,0x1923,0x1404,0x1404,0x1404,0x1404,";
"    0x1404,0x1404,0x1404,0x1404,0x1404,0x1404,0x1404,0x1404,0x1404,0x1404,0x1404,0x1404,0x1404,0x1404,0x1404,0x1404,";
"    0x1404,0x1401,0x1401,0x1404,0x1404,0x1404,0x1404,0x1404,0x1401,0x1404,0x1404,0x1404,0x1401,0x1404,0x1401,0x1404,";
"    0x1401,0x1404,0x1404,0x1404,0x1404,0x1404,0x1407,0x1404,0x1404,0x1404,0x1404,0x1401,0x1404,0x1401,0x1401,0x1404,";
"    0x1404,0x1404,0x1404,0x1404,0x1404,0x1404,0x1404,0x1404,0x1404,0x1404,0x1404,0x1404,0x1401,0x1401,0x1401,0x1401,";
"    0x1401,0x1401,0x1401,0x1404,0x1404,0x1404,0x1404,0x1404,0x1404,0x1404,0x1404,0x1404,0x1404,0x1404,0x1404,0x1404,";
"    0x1404,0x1404,0x1404,0x1401,0x1401,0x1401,0x1401,0x1401,0x1401,0x1401,0x1401,0x1401,0x1401,0x1404,0x1404,0x1404,";
"    0x1404,0x1404,0x1404,0x1404,0x1404,0x1404,0x1404,0x1404,0x1404,0x1404,0x1401,0x1401,0x1401,0x1401,0x1401,0x1401,";
"    0x1401,0x1401,0x1401,0x1401,0x1401,0x1401,0x158a,0x158a,0x1404,0x1404,0x1404,0x1404,0x1404,0x1404,0x1404,0x1404,";
"    0x1404,0x1404,0x1404,0x1404,0x1404,0x1404,0x1404,0x1404,0x1404,0x1404,0x1404,0x1404,0x1404,0x1404,0x1404,0x1404,";
"    0x1404,0x1404,0x1404,0x1404,0x1404,0x1404,0x1404,0x1404,0x1404,0x1596,0x1590,0x1590,0x1596,0x1596,0x1596,0x1596,";
"    0x1596,0x1596,0x1596,0x1596,0x1596,0x17d0,0x17d0,0x17d0,0x1404,0x1404,0x1404,0x1404,0x1404,0x1404,0x1596,0x1404,";
"    0x1404,0x1404,0x1404,0x1404,0x1404,0x1404,0x1404,0x1404,0x1404,0x1404,0x1404,0x1404,0x1404,0x1404,0x1404,0x1404,";
"    0x1404,0x1404,0x1404,0x1404,0x1404,0x1404,0x1404,0x1404,0x1404,0x1404,0x1404,0x1404,0x1404,0x1596,0x17d0,0x17d0,";
"    0x1404,0x1404,0x1404,0x1404,0x1404,0x1407,0x1404,0x1404,0x1404,0x1404,0x1404,0x1404,0x1404,0x1404,0x1404,0x1404,";
"    0x1404,0x1404,0x1404,0x1404,0x1590,0x1590,0x1596,0x1596,0x1590,0x1596,0x1596,0x1596,0x158d,0x158d,0x1596,0x1596,";
"    0x1404,0x1404,0x1407,0x1407,0x1407,0x1701,0x1404,0x1407,0x1404,0x1404,0x1407,0x1599,0x1599,0x1596,0x1596,0x17d0,";
"    0x17d0,0x17d0,0x17d0,0x17d0,0x1596,0x1596,0x1596,0x1596,0x1596,0x1596,0x1596,0x1596,0x1596,0x1596,0x1596,0x1596,";
"    0x1404,0x1404,0x1404,0x1404,0x1404,0x1404,0x1404,0x1404,0x1404,0x1404,0x1404,0x1404,0x1404,0x1404,0x1404,0x1404,";
"    0x1404,0x1590,0x1590,0x1596,0x1701,0x1596,0x1590,0x1596,0x17d0,0x17d0,0x17d0,0x17d3,0x17d3,0x17d3,0x17d3,0x17d3,";
"    0x1404,0x1404,0x1404,0x1404,0x1404,0x1404,0x1404,0x1404,0x1404,0x1404,0x1404,0x1404,0x1404,0x1404,0x1404,0x1404,";
"    0x1404,0x1404,0x1404,0x1404,0x1404,0x1404,0x1404,0x1404,0x1404,0x1404,0x1404,0x1404,0x1404,0x1404,0x1404,0x1596,";
"    0x1404,0x1596,0x1407,0x1407,0x1404,0x1404,0x1407,0x1407,0x1407,0x1407,0x1407,0x1407,0x1407,0x1407,0x1407,0x1407,";
"    0x1407,0x1404,0x1404,0x1404,0x1404,0x1404,0x1404,0x1404,0x1404,0x1404,0x1404,0x1404,0x1404,0x1404,0x1404,0x1404,";
"    0x1404,0x1404,0x1407,0x1407,0x1407,0x1407,0x1407,0x1407,0x1407,0x1407,0x1407,0x1407,0x1407,0x1407,0x1407,0x1407,";
"    0x1407,0x1407,0x1407,0x1407,0x1407,0x1404,0x1404,0x1404,0x1407,0x1404,0x1404,0x1404,0x1404,0x1407,0x1407,0x1407,";
"    0x1404,0x1407,0x1407,0x1407,0x1404,0x1404,0x1404,0x1404,0x1404,0x1404,0x1404,0x1407,0x1404,0x1407,0x1404,0x1404,";
"    0x1404,0x1404,0x1404,0x1404,0x1404,0x1404,0x1404,0x1404,0x1404,0x1404,0x1404,0x1404,0x1404,0x1404,0x1404,0x1404,";
"    0x1404,0x1404,0x1404,0x1404,0x1404,0x1404,0x1404,0x1404,0x1701,0x1404,0x1404,0x1404,0x1404,0x1596,0x1590,0x17d0,";
"    0x145e,0x145e,0x145e,0x145e,0x158a,0x158a,0x158d,0x158d,0x158d,0x1593,0x1596,0x17d0,0x17d0,0x17d0,0x17d0,0x1758,";
"    0x1404,0x1404,0x1404,0x1404,0x1404,0x1404,0x1404,0x1404,0x1404,0x1404,0x1404,0x1404,0x1404,0x1404,0x1404,0x1404,";
"    0x1590,0x1590,0x1590,0x1590,0x1590,0x1590,0x1590,0x1596,0x1596,0x1590,0x1590,0x1596,0x1599,0x1599,0x1596,0x1596,";
"    0x1596,0x1596,0x1887,0x1590,0x1590,0x1590,0x1590,0x1590,0x1590,0x1596,0x1590,0x1596,0x1590,0x1590,0x1590,0x1590,";
"    0x1596,0x1590,0x1590,0x1590,0x1590,0x1590,0x1590,0x1596,0x1590,0x1590,0x1590,0x1596,0x158d,0x158d,0x158d,0x158d,";
"    0x158d,0x158d,0x1596,0x1404,0x1404,0x1404,0x1404,0x1404,0x14e8,0x140a,0x140a,0x140a,0x140a,0x140a,0x140a,0x140a,";
"    0x140a,0x140a,0x140a,0x140a,0x140a,0x140a,0x140a,0x140a,0x140a,0x14e8,0x140a,0x140a,0x140a,0x14e8,0x140a,0x14e8,";
"    0x140a,0x14e8,0x140a,0x14e8,0x140a,0x140a,0x140a,0x14e8,0x140a,0x140a,0x140a,0x140a,0x140a,0x140a,0x14e8,0x14e8,";
"    0x140a,0x140a,0x140a,0x140a,0x14e8,0x140a,0x14e8,0x14e8,0x140a,0x140a,0x140a,0x140a,0x14e8,0x140a,0x140a,0x140a,";
"    0x140a,0x140a,0x140a,0x140a,0x140a,0x140a,0x140a,0x140a,0x140a,0x1707,0x1707,0x17d6,0x17d6,0x140d,0x140d,0x140d,";
"    0x140a,0x140a,0x140a,0x140d,0x140d,0x140d,0x140d,0x140d,0x1686,0x1686,0x1686,0x1686,0x1686,0x1686,0x1686,0x1686,";
"    0x1686,0x1686,0x1686,0x1686,0x1686,0x1686,0x1686,0x1686,0x1410,0x1410,0x1410,0x1410,0x1410,0x1410,0x1410,0x1410,";
"    0x1410,0x1410,0x1410,0x1410,0x1410,0x1410,0x1410,0x1410,0x1410,0x1410,0x1410,0x1410,0x1410,0x1410,0x1410,0x1410,";
"    0x1410,0x1410,0x1410,0x1410,0x1410,0x1410,0x1410,0x1410,0x1410,0x1410,0x1410,0x1413,0x1410,0x1410,0x1410,0x1410,";
"    0x1410,0x1410,0x1410,0x1410,0x1410,0x1410,0x1410,0x1410,0x1410,0x1410,0x1410,0x1410,0x1413,0x1413,0x1413,0x1410,";
"    0x1410,0x1410,0x1410,0x1410,0x1410,0x1410,0x1410,0x1410,0x1416,0x1416,0x1416,0x1416,0x1416,0x1416,0x1416,0x1416,";
"    0x1416,0x1416,0x1416,0x1416,0x1416,0x1416,0x1416,0x1416,0x1416,0x1416,0x1416,0x1416,0x1416,0x1416,0x1416,0x1416,";
"    0x1416,0x1416,0x1416,0x1416,0x1416,0x1416,0x1416,0x1416,0x1803,0x1803,0x1800,0x175b,0x1464,0x1464,0x1464,0x1464,";
"    0x1464,0x1464,0x1461,0x1461,0x1461,0x1461,0x1461,0x1461,0x1464,0x1464,0x1464,0x1464,0x1464,0x1464,0x1464,0x1464,";
"    0x1464,0x1464,0x1464,0x1464,0x1464,0x1464,0x1464,0x15a2,0x1470,0x1470,0x1470,0x1482,0x1482,0x1482,0x1482,0x1482,";
"    0x1482,0x1482,0x1482,0x1482,0x1482,0x1482,0x1482,0x1482,0x1482,0x1482,0x1482,0x1482,0x1482,0x1482,0x1482,0x1482,";
"    0x1482,0x1482,0x1482,0x1482,0x1482,0x1482,0x1482,0x1482,0x149d,0x149d,0x149d,0x149d,0x149d,0x149d,0x149d,0x149d,";
"    0x149d,0x149d,0x149d,0x149d,0x149d,0x149d,0x149d,0x149d,0x149d,0x149d,0x149d,0x149d,0x149d,0x149d,0x149d,0x149d,";
"    0x149d,0x149d,0x149d,0x149d,0x149d,0x149d,0x149d,0x149d,0x14a3,0x14a3,0x14a3,0x14a3,0x14a3,0x14a3,0x14a3,0x14a3,";
"    0x14a3,0x14a3,0x14a3,0x14a3,0x14a3,0x14a3,0x14a3,0x14a3,0x14a3,0x14a3,0x14a3,0x14a3,0x14a3,0x14a3,0x14a3,0x14a3,";
"    0x14a3,0x14a3,0x14a3,0x14a3,0x14a3,0x14a3,0x14a3,0x1a34,0x14a6,0x14a6,0x14a6,0x14a6,0x14a6,0x14a6,0x14a6,0x14a6,";
"    0x14a6,0x14a6,0x14a6,0x14a6,0x14a6,0x14a6,0x14a6,0x14a6,0x14a6,0x14a6,0x14a6,0x14a6,0x14a6,0x14a6,0x14a6,0x14a6,";
"    0x14a6,0x14a6,0x14a6,0x14a6,0x14a6,0x14a6,0x14a6,0x14a6,0x14ac,0x14ac,0x14b8,0x14be,0x14be,0x14be,0x14be,0x14be,";
"    0x14be,0x14be,0x14be,0x14be,0x14be,0x14be,0x14be,0x14be,0x14be,0x14be,0x14be,0x14be,0x14be,0x14be,0x14be,0x14be,";
"    0x14be,0x14be,0x14be,0x14be,0x14be,0x14be,0x14be,0x14be,0x14be,0x14be,0x14be,0x14b8,0x14b8,0x14b8,0x14ac,0x14ac,";
"    0x14ac,0x14ac,0x14ac,0x14ac,0x14ac,0x14ac,0x14ac,0x14b8,0x14bb,0x14be,0x14c1,0x14c1,0x14be,0x14c4,0x14c4,0x14af,";
"    0x14b2,0x1764,0x1767,0x1767,0x1767,0x15ab,0x1adc,0x1ad9,0x14b5,0x14b5,0x14b5,0x14b5,0x14b5,0x14b5,0x14b5,0x14b5,";
"    0x14b5,0x14b5,0x15a8,0x176d,0x1770,0x176a,0x1773,0x1773,0x14df,0x14df,0x14df,0x14df,0x14df,0x14df,0x14df,0x14df,";
"    0x14df,0x14df,0x14df,0x14df,0x14df,0x14df,0x14df,0x14df,0x14df,0x14df,0x14df,0x14df,0x14df,0x14df,0x14df,0x14df,";
"    0x14df,0x14df,0x14df,0x14df,0x14df,0x14df,0x14df,0x14df,0x153c,0x153c,0x153c,0x153c,0x153c,0x153c,0x153c,0x153c,";
"    0x153c,0x153c,0x153c,0x153c,0x153c,0x153c,0x153c,0x153c,0x153c,0x153c,0x153c,0x153c,0x153c,0x153c,0x153c,0x153c,";
"    0x153c,0x153c,0x1956,0x1956,0x1956,0x153c,0x153c,0x153c,0x153c,0x153c,0x153c,0x153c,0x153c,0x153c,0x153c,0x153c,";
"    0x153c,0x1a22,0x153c,0x153c,0x153c,0x153c,0x153c,0x153c,0x153c,0x153c,0x18ba,0x1956,0x1956,0x1956,0x1956,0x1956,";
"    0x1956,0x1956,0x1956,0x1956,0x1956,0x1956,0x1956,0x1956,0x1590,0x1590,0x1596,0x1596,0x1596,0x1590,0x1590,0x1590,";
"    0x1590,0x1590,0x1590,0x1590,0x1590,0x1590,0x1590,0x1590,0x1590,0x1596,0x1596,0x1596,0x158d,0x158d,0x158d,0x158d,";
"    0x158d,0x158d,0x158d,0x158d,0x1596,0x1596,0x1596,0x1590,0x1590,0x1590,0x1590,0x1590,0x1590,0x1590,0x1590,0x1596,";
"    0x1590,0x1590,0x1596,0x1596,0x1596,0x1596,0x1590,0x1590,0x1599,0x1590,0x1590,0x1590,0x1590,0x1704,0x1704,0x1590,";
"    0x1590,0x1590,0x1590,0x1590,0x1590,0x1590,0x1590,0x1590,0x1884,0x1596,0x1590,0x1590,0x1596,0x1590,0x1590,0x1590,";
"    0x1590,0x1590,0x1590,0x1590,0x1590,0x1596,0x1596,0x1590,0x1590,0x1590,0x1590,0x1590,0x1590,0x1590,0x1590,0x1590,";
"    0x1596,0x1590,0x1590,0x1590,0x15ba,0x15ba,0x15ba,0x15ba,0x15ba,0x15ba,0x15ba,0x15ba,0x15ba,0x15ba,0x15ba,0x15ba,";
"    0x15ba,0x15ba,0x15ba,0x15ba,0x15ba,0x15ba,0x15ba,0x15ba,0x15ba,0x15ba,0x15ba,0x15ba,0x15ba,0x15ba,0x15ba,0x15ba,";
"    0x15ba,0x15ba,0x15ba,0x15ba,0x15cc,0x15cc,0x15cc,0x15cc,0x15cc,0x15cc,0x15cc,0x15cc,0x15cc,0x15cc,0x15cc,0x15cc,";
"    0x15cc,0x15cc,0x15cc,0x15cc,0x15cc,0x15cc,0x15cc,0x15cc,0x15cc,0x15cc,0x15cc,0x15cc,0x15cc,0x15cc,0x15cc,0x15cc,";
"    0x15cc,0x15cc,0x15cc,0x15cc,0x15d2,0x15d2,0x15d2,0x15d2,0x15d2,0x15d2,0x15d2,0x15d2,0x15d2,0x15d2,0x15d2,0x15d2,";
"    0x15d2,0x15d2,0x15d2,0x15d2,0x15d2,0x15d2,0x15d2,0x15d2,0x15d2,0x15d2,0x15d2,0x15d2,0x15d2,0x15d2,0x15d2,0x15d2,";
"    0x15d2,0x15d2,0x15d2,0x15d2,0x15d5,0x15d5,0x15d5,0x15d5,0x15d5,0x15d5,0x15d5,0x15d5,0x15d5,0x15d5,0x15d5,0x15d5,";
"    0x15d5,0x15d5,0x15d5,0x15d5,0x15d5,0x15d5,0x15d5,0x15d5,0x15d5,0x15d5,0x15d5,0x15d5,0x15d5,0x15d5,0x15d5,0x15d5,";
"    0x15d5,0x15d5,0x15d5,0x15d5,0x1614,0x1614,0x1614,0x1614,0x1614,0x1614,0x1614,0x1614,0x1614,0x1614,0x1614,0x1614,";
"    0x1614,0x1614,0x1614,0x1614,0x1614,0x1614,0x1614,0x1614,0x1614,0x1614,0x1614,0x1614,0x1614,0x1614,0x1614,0x1614,";
"    0x1614,0x1614,0x1614,0x1605,0x161d,0x161d,0x161d,0x161d,0x161d,0x161d,0x161d,0x161d,0x161d,0x161d,0x161d,0x161d,";
"    0x161d,0x161d,0x161d,0x161d,0x161d,0x161d,0x161d,0x161d,0x161d,0x161d,0x161d,0x161d,0x161d,0x161d,0x161d,0x1617,";
"    0x1620,0x1620,0x1620,0x1620,0x1623,0x1623,0x1623,0x1623,0x1623,0x1623,0x1623,0x1623,0x1623,0x1623,0x1623,0x1623,";
"    0x1623,0x1623,0x1623,0x1623,0x1623,0x1623,0x1623,0x1623,0x1623,0x1623,0x1623,0x1623,0x1623,0x1623,0x1623,0x1623,";
"    0x1623,0x1623,0x1623,0x1623,0x163e,0x163e,0x163e,0x163e,0x163e,0x163e,0x163e,0x163e,0x1635,0x163e,0x163e,0x163e,";
"    0x163e,0x163e,0x163e,0x163e,0x163e,0x163e,0x163e,0x163e,0x163e,0x163e,0x163e,0x163e,0x163e,0x163e,0x163e,0x163e,";
"    0x163e,0x163e,0x163e,0x163e,0x1647,0x1647,0x1647,0x1647,0x1647,0x1647,0x1647,0x1647,0x1647,0x1647,0x1647,0x1647,";
"    0x1647,0x1647,0x1647,0x1647,0x1647,0x1647,0x1647,0x1647,0x1647,0x1647,0x1647,0x1647,0x1647,0x1647,0x1647,0x1647,";
"    0x1647,0x1647,0x1647,0x1647,0x1659,0x1659,0x1659,0x1659,0x1659,0x1659,0x1659,0x1659,0x1659,0x1659,0x1659,0x1659,";
"    0x1659,0x1659,0x1659,0x1659,0x1656,0x1656,0x1656,0x164a,0x164a,0x164a,0x164a,0x164a,0x164a,0x164a,0x164a,0x1656,";
"    0x1656,0x164a,0x1656,0x164d,0x1659,0x1659,0x1659,0x1659,0x1659,0x1659,0x1659,0x1659,0x1659,0x1659,0x1659,0x1659,";
"    0x1659,0x1659,0x1659,0x1659,0x1659,0x1659,0x1659,0x1659,0x1659,0x1659,0x1659,0x1659,0x1659,0x1659,0x1659,0x1659,";
"    0x1659,0x1659,0x1659,0x1659,0x167d,0x167d,0x167d,0x167d,0x167d,0x167d,0x167d,0x167d,0x167d,0x167d,0x167d,0x167d,";
"    0x167d,0x167d,0x167d,0x167d,0x167d,0x167d,0x167d,0x167d,0x167d,0x167d,0x167d,0x167d,0x167d,0x167d,0x167d,0x167d,";
"    0x167d,0x167a,0x167a,0x167a,0x1686,0x1686,0x1686,0x1686,0x1686,0x1686,0x1686,0x1686,0x1686,0x1686,0x1686,0x1686,";
"    0x1686,0x1686,0x1686,0x1686,0x1686,0x1686,0x1686,0x1686,0x1686,0x1686,0x168c,0x168c,0x168c,0x1689,0x1689,0x1689,";
"    0x1686,0x1686,0x1686,0x1686,0x169b,0x169b,0x169b,0x169b,0x169b,0x169b,0x169b,0x169b,0x169b,0x169b,0x169b,0x169b,";
"    0x169b,0x169b,0x169b,0x169b,0x168f,0x168f,0x168f,0x168f,0x168f,0x168f,0x168f,0x16a1,0x16a1,0x1695,0x1692,0x1692,";
"    0x1692,0x1692,0x1692,0x1692,0x169b,0x169b,0x169b,0x169b,0x169b,0x169b,0x169b,0x169b,0x169b,0x169b,0x169b,0x169b,";
"    0x169b,0x169b,0x169b,0x169b,0x169b,0x169b,0x169b,0x169b,0x169b,0x169b,0x169b,0x169b,0x169b,0x169b,0x169b,0x169b,";
"    0x169b,0x169b,0x169b,0x169b,0x16a7,0x16a7,0x16a7,0x16a7,0x16a7,0x16a7,0x16a7,0x16a7,0x16a7,0x16a7,0x16a7,0x16a7,";
"    0x16a7,0x16a7,0x16a7,0x16a7,0x16a7,0x16a7,0x16a7,0x16a7,0x16a7,0x16a7,0x16a7,0x16a4,0x16a4,0x16a4,0x16a4,0x16a4,";
"    0x16a4,0x16a4,0x16a4,0x16a4,0x16aa,0x16aa,0x16aa,0x16aa,0x16aa,0x16aa,0x16aa,0x16aa,0x16aa,0x16aa,0x16aa,0x16aa,";
"    0x16aa,0x16aa,0x16aa,0x16aa,0x16aa,0x16aa,0x16aa,0x16aa,0x16aa,0x16aa,0x16aa,0x16aa,0x16aa,0x16aa,0x16aa,0x16aa,";
"    0x16aa,0x16aa,0x16aa,0x16aa,0x16ce,0x16ce,0x16ce,0x16ce,0x16ce,0x16ce,0x16ce,0x16ce,0x16ce,0x16ce,0x16ce,0x16ce,";
"    0x16ce,0x16ce,0x16ce,0x16ce,0x16ce,0x16ce,0x16ce,0x16ce,0x16ce,0x16ce,0x16ce,0x16ce,0x16ce,0x16ce,0x16ce,0x16ce,";
"    0x16ce,0x16ce,0x16ce,0x16ce,0x16d7,0x16d7,0x16d7,0x16d7,0x16d7,0x16d7,0x16d7,0x16d7,0x16d7,0x16d7,0x16d7,0x16d7,";
"    0x16d7,0x16d7,0x16d7,0x16d7,0x16d7,0x16d7,0x16d7,0x16d7,0x16d7,0x16d7,0x16d7,0x16d7,0x16d7,0x16d7,0x16d7,0x16d7,";
"    0x16d7,0x16d7,0x16d7,0x16d7,0x16ef,0x16ef,0x16ef,0x16ef,0x16ef,0x16ef,0x16ef,0x16ef,0x16ef,0x16ef,0x16ef,0x16ef,";
"    0x16ef,0x16ef,0x16ef,0x16ef,0x16da,0x16e9,0x16e9,0x16da,0x16da,0x16da,0x16da,0x16da,0x16da,0x16e9,0x16da,0x16ec,";
"    0x16ec,0x16da,0x16ec,0x16da,0x16ef,0x16ef,0x16ef,0x16ef,0x16ef,0x16ef,0x16ef,0x16ef,0x16ef,0x16ef,0x16ef,0x16ef,";
"    0x16ef,0x16ef,0x16ef,0x16ef,0x16ef,0x16ef,0x16ef,0x16ef,0x16ef,0x16ef,0x16ef,0x16ef,0x16ef,0x16ef,0x16ef,0x16ef,";
"    0x16ef,0x16ef,0x16ef,0x16ef,0x16f8,0x16f8,0x16f8,0x16f8,0x16f8,0x16f8,0x16f8,0x16f8,0x16f8,0x16f8,0x16f8,0x16f8,";
"    0x16f8,0x16f8,0x16f8,0x16f8,0x16f8,0x16f8,0x16f8,0x16f8,0x16f8,0x16f8,0x16f8,0x16f8,0x16f8,0x16f8,0x16f8,0x16f8,";
"    0x16f8,0x16f8,0x16f8,0x16f8,0x16fe,0x16fe,0x16fe,0x16fe,0x16fe,0x16fe,0x16fe,0x16fe,0x16fe,0x16fe,0x16fe,0x16fe,";
"    0x16fe,0x16fe,0x16fe,0x16fe,0x16fe,0x16fe,0x16fe,0x16fe,0x16fe,0x16fe,0x16fe,0x16fe,0x16fe,0x16fe,0x16fe,0x16fe,";
"    0x16fe,0x16fe,0x16fe,0x16fe,0x1956,0x1956,0x1956,0x1956,0x1956,0x1956,0x1956,0x1956,0x1956,0x1956,0x1956,0x1956,";
"    0x1740,0x1740,0x1740,0x1740,0x1956,0x1956,0x1956,0x1956,0x1956,0x1956,0x1956,0x1956,0x1956,0x1956,0x1956,0x1956,";
"    0x1956,0x1956,0x1956,0x1a22,0x1761,0x1761,0x1761,0x1761,0x1761,0x1761,0x1761,0x1761,0x1761,0x1761,0x1761,0x1761,";
"    0x1761,0x1761,0x1761,0x1761,0x1761,0x1761,0x1761,0x1761,0x1761,0x1761,0x1761,0x1761,0x1761,0x1761,0x1761,0x1761,";
"    0x1761,0x1761,0x1761,0x1761,0x179d,0x179d,0x179d,0x179d,0x179d,0x179d,0x179d,0x179d,0x179d,0x179d,0x179d,0x179d,";
"    0x179d,0x179d,0x179d,0x179d,0x179d,0x179d,0x179d,0x179d,0x179d,0x179d,0x179d,0x179d,0x179d,0x179d,0x179d,0x179d,";
"    0x179d,0x179d,0x179d,0x179d,0x179d,0x179d,0x17a3,0x17a0,0x179d,0x179d,0x179d,0x179d,0x179d,0x179d,0x179d,0x179d,";
"    0x179d,0x179d,0x179d,0x179d,0x179d,0x179d,0x179d,0x179d,0x17a6,0x17a6,0x17a6,0x17a6,0x17a6,0x17a6,0x17a6,0x17a6,";
"    0x17a6,0x17a6,0x17a6,0x17a6,0x17a6,0x17a6,0x17a6,0x17a6,0x17a6,0x17a6,0x17a6,0x17a6,0x17a6,0x17a6,0x17a6,0x17a6,";
"    0x17a6,0x17a6,0x17a6,0x17a6,0x17a6,0x17a6,0x17a6,0x17a6,0x17a9,0x17a9,0x17a9,0x17a9,0x17a9,0x17a9,0x17a9,0x17a9,";
"    0x17a9,0x17a9,0x17a9,0x17a9,0x17a9,0x17a9,0x17a9,0x17a9,0x17a9,0x17a9,0x17a9,0x17a9,0x17a9,0x17a9,0x17a9,0x17a9,";
"    0x17a9,0x17a9,0x17a9,0x17a9,0x17a9,0x17a9,0x17a9,0x17a9,0x17bb,0x17bb,0x17bb,0x17bb,0x17bb,0x17bb,0x17bb,0x17bb,";
"    0x17bb,0x17bb,0x17bb,0x17bb,0x17bb,0x17bb,0x17bb,0x17bb,0x17bb,0x17bb,0x17bb,0x17bb,0x17bb,0x17bb,0x17bb,0x17bb,";
"    0x17bb,0x17bb,0x17bb,0x17bb,0x17bb,0x17bb,0x17bb,0x17bb,0x17be,0x17be,0x17be,0x17be,0x17be,0x17be,0x17be,0x17be,";
"    0x17be,0x17be,0x17be,0x17be,0x17be,0x17be,0x17be,0x17be,0x17be,0x17be,0x17be,0x17be,0x17be,0x17be,0x17be,0x17be,";
"    0x17be,0x17be,0x17be,0x17be,0x17be,0x17be,0x17be,0x17be,0x17c1,0x17c1,0x17c1,0x17c1,0x17c1,0x17c1,0x17c1,0x17c1,";
"    0x17c1,0x17c1,0x17c1,0x17c1,0x17c1,0x17c1,0x17c1,0x17c1,0x17c1,0x17c1,0x17c1,0x17c1,0x17c1,0x17c1,0x17c1,0x17c1,";
"    0x17c1,0x17c1,0x17c1,0x17c1,0x17c1,0x17c1,0x17c1,0x17c1,0x17c1,0x17c1,0x17c1,0x17c4,0x17c4,0x17c4,0x17c4,0x17c1,";
"    0x17c1,0x17c1,0x17c1,0x17c1,0x17c1,0x17c1,0x17c1,0x17c1,0x17c1,0x17c1,0x17c1,0x17c1,0x17c1,0x17c4,0x17c4,0x17c4,";
"    0x17c4,0x17c4,0x17c4,0x17c4,0x17c4,0x17c1,0x17c4,0x17c4,0x17c4,0x17c4,0x17c4,0x17c4,0x17c4,0x17c4,0x17c4,0x17c4,";
"    0x17c4,0x17c4,0x17c4,0x17c4,0x17c4,0x17c4,0x17c4,0x17c4,0x17c4,0x17c4,0x17c4,0x17c4,0x17c4,0x17c4,0x17c4,0x17c4,";
"    0x17c4,0x17c4,0x17c4,0x17c4,0x17c4,0x17c4,0x17c4,0x17c4,0x17dc,0x17dc,0x17dc,0x17dc,0x17dc,0x17dc,0x17dc,0x17dc,";
"    0x17dc,0x17dc,0x17dc,0x17dc,0x17dc,0x17dc,0x17dc,0x17dc,0x17dc,0x17dc,0x17dc,0x17dc,0x17dc,0x17dc,0x17dc,0x17dc,";
"    0x17dc,0x17dc,0x17dc,0x17dc,0x17dc,0x17dc,0x17dc,0x17dc,0x18c6,0x18c6,0x18c6,0x18c6,0x18c6,0x18c6,0x18c6,0x18c6,";
"    0x18c6,0x18c6,0x18c6,0x18c6,0x1b3f,0x1a94,0x1a94,0x1a97,0x17df,0x17df,0x17df,0x17df,0x17df,0x17df,0x17df,0x17df,";
"    0x17e2,0x1890,0x1890,0x1890,0x1890,0x1890,0x1890,0x192c,0x17df,0x17df,0x17df,0x17df,0x17df,0x188d,0x188d,0x188d,";
"    0x188d,0x188d,0x188d,0x188d,0x188d,0x188d,0x188d,0x188d,0x188d,0x188d,0x1929,0x1929,0x1929,0x1929,0x1929,0x1929,";
"    0x1a0a,0x1a0a,0x1a0a,0x1a0a,0x1a0a,0x1a0a,0x1a0a,0x1a0a,0x188d,0x188d,0x188d,0x188d,0x188d,0x188d,0x1890,0x188d,";
"    0x1929,0x1929,0x1929,0x1929,0x1929,0x1929,0x1929,0x1929,0x1890,0x192c,0x192c,0x1890,0x1890,0x1890,0x1890,0x1890,";
"    0x1890,0x1890,0x188d,0x180f,0x1890,0x1890,0x1890,0x1a94,0x188d,0x188d,0x188d,0x188d,0x188d,0x188d,0x180f,0x188d,";
"    0x188d,0x188d,0x188d,0x188d,0x1929,0x1a0a,0x1a0a,0x1a0a,0x188d,0x188d,0x188d,0x188d,0x188d,0x188d,0x188d,0x188d,";
"    0x188d,0x188d,0x188d,0x188d,0x188d,0x188d,0x188d,0x1929,0x1824,0x1824,0x1821,0x1821,0x1821,0x1821,0x1821,0x1821,";
"    0x1821,0x1821,0x1821,0x1821,0x1821,0x1821,0x1821,0x1821,0x1821,0x1821,0x1821,0x1821,0x1821,0x1821,0x1821,0x1821,";
"    0x1821,0x1821,0x1821,0x1821,0x1821,0x1821,0x1821,0x1821,0x1824,0x1824,0x1824,0x1824,0x1824,0x1824,0x1824,0x1824,";
"    0x1824,0x1824,0x1824,0x1824,0x1824,0x1824,0x1824,0x1824,0x1824,0x1824,0x1824,0x1824,0x1824,0x1824,0x1824,0x1824,";
"    0x1824,0x1824,0x1824,0x1824,0x1824,0x1824,0x1824,0x1824,0x1872,0x1872,0x1872,0x1872,0x1872,0x1872,0x1872,0x1872,";
"    0x1872,0x1872,0x1872,0x1872,0x1872,0x1872,0x1872,0x1872,0x1872,0x1872,0x1872,0x1872,0x1872,0x186f,0x186f,0x186f,";
"    0x185a,0x185a,0x185a,0x185a,0x185a,0x185a,0x185a,0x185a,0x1872,0x1872,0x1872,0x1872,0x1872,0x1872,0x1872,0x1872,";
"    0x1872,0x1872,0x1872,0x1872,0x1872,0x1872,0x1872,0x1872,0x1872,0x1872,0x1872,0x1872,0x1872,0x1872,0x1872,0x1872,";
"    0x1872,0x1872,0x1872,0x1872,0x1872,0x1872,0x1872,0x1872,0x1896,0x1896,0x1896,0x1896,0x1896,0x1896,0x1896,0x1896,";
"    0x1896,0x1896,0x1896,0x1896,0x1896,0x1896,0x1896,0x1896,0x1896,0x1896,0x1896,0x1896,0x1896,0x1896,0x1896,0x1896,";
"    0x1896,0x1896,0x1896,0x1896,0x1896,0x1896,0x1896,0x1896,0x1899,0x1899,0x1899,0x1899,0x1899,0x1899,0x1899,0x1899,";
"    0x1899,0x1899,0x1899,0x1899,0x1899,0x1899,0x1899,0x1899,0x1899,0x1899,0x1899,0x1899,0x1899,0x1899,0x1899,0x1899,";
"    0x1899,0x1899,0x1899,0x1899,0x1899,0x1899,0x1899,0x1899,0x1899,0x1899,0x1899,0x1b48,0x1b48,0x1b48,0x1b48,0x1b48,";
"    0x1b48,0x1b48,0x1b48,0x1b48,0x1b48,0x1b48,0x1b48,0x1b48,0x18f0,0x18f0,0x18f0,0x18f0,0x1a46,0x1a46,0x18f3,0x18f3,";
"    0x18f3,0x18f3,0x18db,0x18db,0x18db,0x18db,0x18db,0x18db,0x18db,0x18db,0x18db,0x18db,0x18db,0x18db,0x18db,0x18ed,";
"    0x18de,0x18e1,0x18e4,0x18f6,0x18f6,0x1995,0x18e7,0x18e7,0x18f0,0x18f0,0x18f0,0x18f0,0x18f0,0x18f0,0x18f0,0x18f0,";
"    0x18f0,0x18f0,0x18f0,0x18f0,0x18f0,0x18f0,0x18f0,0x18f0,0x18f0,0x18f0,0x18f0,0x18f0,0x18f0,0x18f0,0x18f0,0x18f0,";
"    0x18f0,0x18f0,0x18f0,0x18f0,0x18f0,0x18f0,0x18f0,0x18f0,0x1911,0x1911,0x1911,0x1911,0x1911,0x1911,0x1911,0x1911,";
"    0x1911,0x1911,0x1911,0x1911,0x1911,0x1911,0x1911,0x1911,0x1911,0x1911,0x1911,0x18fc,0x1902,0x18ff,0x18ff,0x18ff,";
"    0x18ff,0x190e,0x1914,0x18ff,0x18ff,0x18ff,0x18ff,0x190b,0x1911,0x18ff,0x18ff,0x18ff,0x18ff,0x18ff,0x18ff,0x18ff,";
"    0x18ff,0x18ff,0x18ff,0x1911,0x1911,0x1911,0x1911,0x1911,0x1911,0x1911,0x1911,0x1911,0x1911,0x1911,0x1911,0x1911,";
"    0x1911,0x1911,0x1911,0x1911,0x1911,0x1911,0x1911,0x1911,0x1923,0x1923,0x1923,0x1923,0x1923,0x1923,0x1923,0x1923,";
"    0x1923,0x1923,0x1923,0x1923,0x1923,0x1923,0x1923,0x1923,0x1923,0x1923,0x1923,0x1923,0x1923,0x1923,0x1923,0x1923,";
"    0x1923,0x1923,0x1923,0x1923,0x1923,0x1923,0x1923,0x1923,0x1929,0x1929,0x1929,0x1929,0x1929,0x1929,0x1929,0x1a0a,";
"    0x1a0a,0x1a0a,0x1a0a,0x1a0a,0x1a0a,0x1a0a,0x1a0a,0x1a0a,0x1a0a,0x1a0a,0x1a0a,0x1a0a,0x1a0a,0x1a0a,0x1a0a,0x1a0a,";
"    0x1a0a,0x1a0a,0x1a0a,0x1a0a,0x1a0a,0x1a0a,0x1a0a,0x1a0a,0x1932,0x1932,0x1932,0x1932,0x1932,0x1932,0x1932,0x1932,";
"    0x1932,0x1932,0x1932,0x1932,0x1932,0x1932,0x1932,0x1932,0x1932,0x1932,0x1932,0x1932,0x1932,0x1932,0x1932,0x1932,";
"    0x1932,0x1932,0x1932,0x1932,0x1932,0x1932,0x1932,0x1932,0x1938,0x1938,0x1938,0x1938,0x1938,0x1938,0x1938,0x1938,";
"    0x1938,0x1938,0x1938,0x1938,0x1938,0x1938,0x1938,0x1938,0x1938,0x1938,0x1938,0x1938,0x1938,0x1938,0x1938,0x1938,";
"    0x1938,0x1938,0x1938,0x1938,0x1938,0x1938,0x1938,0x1938,0x19aa,0x19aa,0x19aa,0x19aa,0x19aa,0x19aa,0x19aa,0x19aa,";
"    0x19aa,0x19aa,0x19aa,0x19aa,0x19aa,0x19aa,0x19aa,0x19aa,0x19aa,0x19aa,0x19aa,0x19aa,0x19aa,0x19aa,0x19aa,0x19aa,";
"    0x19aa,0x19aa,0x19aa,0x19aa,0x19aa,0x19aa,0x19aa,0x19aa,0x19c5,0x19c5,0x19c5,0x19c5,0x19c5,0x19c5,0x19c5,0x19c5,";
"    0x19c5,0x19c5,0x19c5,0x19c5,0x19c5,0x19c5,0x19c5,0x19c5,0x19c5,0x19c5,0x19c5,0x19c5,0x19c5,0x19c5,0x19c5,0x19c5,";
"    0x19c5,0x19c5,0x19c5,0x19c5,0x19c5,0x19c5,0x19c5,0x19c5,0x19cb,0x19cb,0x19cb,0x19cb,0x19cb,0x19cb,0x19cb,0x19cb,";
"    0x19cb,0x19cb,0x19cb,0x19cb,0x19cb,0x19cb,0x19cb,0x19cb,0x19cb,0x19cb,0x19cb,0x19cb,0x19cb,0x19cb,0x19cb,0x19cb,";
"    0x19cb,0x19cb,0x19cb,0x19cb,0x19cb,0x19cb,0x19cb,0x19cb,0x19e6,0x19e6,0x19e6,0x19e6,0x19e6,0x19e6,0x19e6,0x19e6,";
"    0x19e6,0x19e6,0x19e6,0x19e6,0x19e6,0x19e6,0x19e6,0x19e6,0x19e6,0x19e6,0x19e6,0x19e6,0x19e6,0x19e6,0x19e6,0x19e6,";
"    0x19e6,0x19e6,0x19e6,0x19e6,0x19e6,0x19e6,0x19e6,0x19e6,0x19e9,0x19e9,0x19e9,0x19e9,0x19e9,0x19e9,0x19e9,0x19e9,";
"    0x19e9,0x19e9,0x19e9,0x19e9,0x19e9,0x19e9,0x19e9,0x19e9,0x19e9,0x19e9,0x19e9,0x19e9,0x19e9,0x19e9,0x19e9,0x19e9,";
"    0x19e9,0x19e9,0x19e9,0x19e9,0x19e9,0x19e9,0x19e9,0x19e9,0x19f2,0x19f2,0x19f2,0x19f2,0x19f2,0x19f2,0x19f2,0x19f2,";
"    0x19f2,0x19f2,0x19f2,0x19f2,0x19f2,0x19f2,0x19f2,0x19f2,0x19f2,0x19f2,0x19f2,0x19f2,0x19f2,0x19f2,0x19f2,0x19f2,";
"    0x19f2,0x19f2,0x19f2,0x19f2,0x19f2,0x19ef,0x19ef,0x19ef,0x1a0a,0x1a0a,0x1a0a,0x1b3c,0x1b3c,0x1a94,0x1a94,0x1a94,";
"    0x1a94,0x1a94,0x1a94,0x1b3c,0x1b3c,0x1b3c,0x1a94,0x1a94,0x1a0d,0x1a0d,0x1a0d,0x1a0d,0x1a0a,0x1a10,0x1a10,0x1a0a,";
"    0x1a10,0x1a10,0x1a94,0x1a97,0x1a94,0x1a94,0x1a94,0x1a94,0x1a49,0x1a49,0x1a49,0x1a49,0x1a49,0x1a49,0x1a49,0x1a49,";
"    0x1a49,0x1a49,0x1a49,0x1a49,0x1a49,0x1a49,0x1a49,0x1a49,0x1a49,0x1a49,0x1a49,0x1a49,0x1a49,0x1a49,0x1a49,0x1a49,";
"    0x1a49,0x1a49,0x1a49,0x1a49,0x1a49,0x1a49,0x1a49,0x1a49,0x1a70,0x1a70,0x1a70,0x1a70,0x1a70,0x1a70,0x1a70,0x1a70,";
"    0x1a70,0x1a70,0x1a70,0x1a70,0x1a70,0x1a70,0x1a70,0x1a70,0x1a70,0x1a70,0x1a70,0x1a70,0x1a70,0x1a70,0x1a70,0x1a70,";
"    0x1a70,0x1a70,0x1a70,0x1a70,0x1a70,0x1a70,0x1a70,0x1a70,0x1a79,0x1a79,0x1a79,0x1a79,0x1a79,0x1a79,0x1a79,0x1a79,";
"    0x1a79,0x1a79,0x1a79,0x1a79,0x1a79,0x1a79,0x1a79,0x1a79,0x1aaf,0x1aaf,0x1a79,0x1aaf,0x1a79,0x1a79,0x1a79,0x1a79,";
"    0x1a79,0x1a79,0x1a79,0x1a79,0x1a79,0x1a7f,0x1a7f,0x1a7f,0x1a8b,0x1a8b,0x1a8b,0x1a8b,0x1a8b,0x1a8b,0x1a8b,0x1a8b,";
"    0x1a8b,0x1a8b,0x1a8b,0x1a8b,0x1a8b,0x1a8b,0x1a8b,0x1a8b,0x1a8b,0x1a8b,0x1a8b,0x1a8b,0x1a8b,0x1a8b,0x1a8b,0x1a8b,";
"    0x1a8b,0x1a8b,0x1a8b,0x1a8b,0x1a8b,0x1a8b,0x1a8b,0x1a8b,0x1b1e,0x1b1e,0x1b1e,0x1b1e,0x1b1e,0x1b1e,0x1b1e,0x1b1e,";
"    0x1b1e,0x1b1e,0x1b1e,0x1b1e,0x1b1e,0x1b1e,0x1b1e,0x1b1e,0x1b1e,0x1b1e,0x1b1e,0x1b1e,0x1b1e,0x1b1e,0x1b1e,0x1b1e,";
"    0x1b1e,0x1b1e,0x1b1e,0x1b1e,0x1b1e,0x1b1e,0x1b1e,0x1b1e,0x1b2a,0x1b2a,0x1b2a,0x1b2a,0x1b2a,0x1b2a,0x1b2a,0x1b2a,";
"    0x1b2a,0x1b2a,0x1b2a,0x1b2a,0x1b2a,0x1b2a,0x1b2a,0x1b2a,0x1b2a,0x1b2a,0x1b2a,0x1b2a,0x1b2a,0x1b2a,0x1b2a,0x1b2a,";
"    0x1b2a,0x1b2a,0x1b2a,0x1b2a,0x1b2a,0x1b2a,0x1b2a,0x1b2a,0x1b4e,0x1b4e,0x1b4e,0x1b4e,0x1b4e,0x1b4e,0x1b4e,0x1b4e,";
"    0x1b4e,0x1b4e,0x1b4e,0x1b4e,0x1b4e,0x1b4e,0x1b4e,0x1b4e,0x1b4e,0x1b4e,0x1b4e,0x1b4e,0x1b4e,0x1b4e,0x1b4e,0x1b4e,";
"    0x1b4e,0x1b4e,0x1b4e,0x1b4e,0x1b4e,0x1b4e,0x1b4e,0x1b4e,0x1b51,0x1b51,0x1b51,0x1b51,0x1b51,0x1b51,0x1b51,0x1b51,";
"    0x1b51,0x1b51,0x1b51,0x1b51,0x1b51,0x1b51,0x1b51,0x1b51,0x1b51,0x1b51,0x1b51,0x1b51,0x1b51,0x1b51,0x1b51,0x1b51,";
"    0x1b51,0x1b51,0x1b51,0x1b51,0x1b51,0x1b51,0x1b51,0x1b51,0,0,0,0";
"]";
"";
"propsVectorsTrie_index_length = 5024";
"propsVectorsTrie_index_2_null_offset = 0xa40";
"propsVectorsTrie_data_null_offset = 0x1420";
"propsVectorsTrie_high_start = 0x110000";
"propsVectorsTrie_high_value_index = 0x79f8";
"";
"propsVectors = [";
"    0x67,0,0,0x67,0,0x4e00000,0x67,0x80000,0x20,0x867,0,0,0xa67,0,0,0xb67,";
"    0,0,0xc67,0,0,0xd67,0,0,0xe67,0,0,0x1067,0,0,0x1167,0,";
"    0,0x1267,0,0,0x1367,0,0,0x1467,0,0,0x1567,0,0,0x1667,0,0,";
"    0x1767,0,0,0x1867,0,0,0x1967,0,0,0x1a67,0,0,0x1b67,0,0,0x1d67,";
"    0,0,0x1f67,0,0,0x2067,0,0,0x2267,0,0,0x2367,0,0,0x2467,0,";
"    0,0x2567,0,0,0x2767,0,0,0x2867,0x80000,0x20,0x2967,0,0,0x2a67,0,0x1600000,";
"    0x2b67,0,0,0x2d67,0,0,0x3167,0x20000000,0,0x3267,0x20000000,0,0x3a67,0,0,0x3b67,";
"    0,0,0x3c67,0,0,0x3e67,0,0,0x4067,0,0,0x4167,0,0,0x4467,0,";
"    0,0x4867,0,0,0x4967,0,0,0x4a67,0,0,0x5067,0,0,0x5167,0,0,";
"    0x5467,0,0,0x5567,0,0,0x5667,0x80000,0x20,0x5767,0,0,0x5867,0,0,0x5967,";
"    0,0,0x5b67,0,0,0x5c67,0,0,0x5d67,0,0,0x6067,0x80000,0x20,0x6267,0,";
"    0,0x6367,0,0,0x6467,0,0,0x6567,0,0,0x6f67,0,0,0x7067,0,0,";
"    0x7367,0x20000000,0,0x7567,0,0,0x7667,0,0,0x7767,0,0,0x7867,0,0,0x7a67,";
"    0,0,0x7b67,0,0,0x7c67,0,0,0x7e67,0,0,0x7f67,0,0,0x8167,0,";
"    0,0x8267,0,0,0x8367,0,0,0x8467,0,0,0x8567,0,0,0x8667,0,0,";
"    0x8767,0,0,0x8867,0,0,0x8967,0,0,0x8b67,0,0,0x8c67,0,0,0x8e67,";
"    0x20000000,0,0x8f67,0,0,0x9067,0,0,0x9167,0,0,0x9267,0,0,0x9367,0,";
"    0,0x9567,0,0,0x9667,0,0,0x9767,0,0,0x9867,0,0,0x9967,0,0,";
"    0x9a67,0,0,0x9c67,0,0,0x9f67,0,0,0xa167,0,0,0xa367,0,0,0xa467,";
"    0,0,0xa567,0,0,0xa667,0,0,0xa767,0,0,0xa867,0,0,0xa967,0,";
"    0,0xaa67,0,0x4e00000,0xab67,0,0x4e00000,0xac67,0,0,0xad67,0,0,0xae67,0,0,";
"    0xaf67,0,0,0xb167,0,0,0xb267,0,0,0xb467,0,0,0xb567,0,0,0xb767,";
"    0,0,0xb867,0,0,0xb967,0,0,0xba67,0,0,0xbc67,0,0,0xbd67,0,";
"    0,0xbe67,0,0,0xbf67,0,0,0xc067,0,0,0xc167,0,0,0xc267,0,0,";
"    0xc367,0,0x4e00000,0xc467,0,0x4e00000,0xc667,0,0,0xc767,0,0,0xc867,0,0,0xc967,";
"    0,0,0xca67,0,0,0xcc67,0,0x4e00000,0xcf67,0,0x4e00000,0xd067,0,0x4e00000,0xd267,0,";
"    0,0xd367,0,0,0xd467,0,0,0xd567,0,0,0xd667,0,0,0xd867,0,0,";
"    0xda67,0,0,0xdb67,0,0,0xdc67,0,0,0xdd67,0,0,0xde67,0,0,0xdf67,";
"    0,0,0xe067,0,0,0xe167,0,0,0xe267,0,0,0xe367,0,0x4e00000,0xe467,0,";
"    0,0xe567,0,0,0xe667,0,0,0xe767,0,0,0xe867,0,0,0xe967,0,0,";
"    0xea67,0,0,0xeb67,0,0,0xec67,0,0,0xed67,0,0,0xee67,0,0,0xef67,";
"    0,0,0xf167,0,0,0xf367,0,0,0xf567,0,0,0xf667,0,0,0xf767,0,";
"    0,0xf867,0,0,0xf967,0,0,0xfa67,0,0x4e00000,0xfb67,0,0,0xfc67,0,0,";
"    0xfd67,0,0,0xfe67,0,0,0x10167,0,0,0x10267,0,0,0x10367,0,0,0x10467,";
"    0,0,0x10567,0,0x4e00000,0x10667,0,0,0x10767,0,0,0x10867,0,0,0x10967,0,";
"    0,0x10a67,0,0,0x10b67,0,0,0x10c67,0,0,0x10d67,0,0,0x10e67,0,0,";
"    0x10f67,0,0,0x11067,0,0,0x11367,0,0,0x11467,0,0,0x11567,0,0,0x11667,";
"    0,0,0x11767,0,0,0x11867,0,0,0x11967,0,0x4e00000,0x11a67,0,0,0x11b67,0,";
"    0,0x11c67,0,0,0x11d67,0,0,0x11e67,0,0,0x11f67,0,0,0x12067,0,0,";
"    0x12167,0,0,0x12267,0,0,0x12367,0,0,0x12467,0,0,0x12567,0,0,0x12667,";
"    0,0,0x12767,0,0,0x12867,0,0,0x12967,0,0,0x12a67,0,0x4e00000,0x12b67,0,";
"    0,0x12c67,0,0,0x12d67,0,0,0x12f67,0,0,0x13067,0,0,0x13167,0,0,";
"    0x13267,0,0,0x13367,0,0,0x13467,0,0,0xa0067,0,0xe00000,0xa4767,0,0xe00000,0xa4f67,";
"    0,0xe00000,0xa5e67,0,0xe00000,0xa5f67,0,0xe00000,0xac567,0,0xe00000,0xad167,0,0xe00000,0xb0067,0,";
"    0xe00000,0xb1267,0,0xe00000,0xb2e67,0,0xe00000,0x11000100,0,0x900020,0x11000100,0x40000001,0x440020,0x11000100,0x40000001,0x643020,";
"    0x11000100,0x40000001,0xa5a040,0x11000100,0x40000001,0x116a8a0,0x11000200,0,0x900020,0x11000200,0x4000001,0xc4000b,0x11000200,0x7c00100,0x220402,0x11000200,";
"    0x24000000,0x14200000,0x11000200,0x24000008,0x1710000,0x11000200,0x40000001,0x1d3b020,0x11000219,0x7c00100,0x220401,0x11000219,0x7c00100,0x250401,0x11000319,0x7c00100,";
"    0x220401,0x11000319,0x7c00100,0x220402,0x11000319,0x7c00100,0x250400,0x11000319,0x7c00100,0x250401,0x11000419,0x7c00100,0x220400,0x11000419,0x7c00100,0x220401,";
"    0x11000419,0x7c00100,0x220402,0x11000419,0x7c00100,0x230400,0x11000419,0x7c00100,0x250400,0x11000419,0x7c00100,0x250401,0x11000419,0x7c00100,0x250402,0x11000519,";
"    0x7c00100,0x220400,0x11000519,0x7c00100,0x230400,0x11000600,0x4000400,0x200002,0x11000600,0x4000400,0x200400,0x11000600,0x7c00500,0x220400,0x11000600,0x7c00500,";
"    0x230400,0x11000600,0x7c00500,0x530400,0x11000600,0x7c00d00,0x230400,0x11000619,0x7c00500,0x22040f,0x11000800,0x4000010,0x1001401,0x11000800,0x4000400,0x200001,";
"    0x11000800,0x6800010,0x201001,0x11000800,0x7c00500,0x230401,0x11000807,0x7c00100,0x220400,0x11000807,0x7c00100,0x250400,0x1100080e,0x4000400,0x200000,0x1100080e,";
"    0x4000400,0x200002,0x1100080e,0x7000500,0x220402,0x1100080e,0x7c00100,0x220400,0x1100080e,0x7c00100,0x220401,0x1100080e,0x7c00100,0x220402,0x1100080e,0x7c00100,";
"    0x250400,0x1100080e,0x7c00100,0x250401,0x1100080e,0x7c00120,0x220402,0x1100080e,0x7c00120,0x250402,0x11000908,0x4000000,0x200000,0x11000908,0x7c00100,0x220400,";
"    0x11000908,0x7c00100,0x220401,0x11000908,0x7c00100,0x250400,0x11000908,0x7c00100,0x250401,0x11000a03,0x4000000,0x200400,0x11000a03,0x4000000,0x201000,0x11000a03,";
"    0x4000000,0x270000,0x11000a03,0x7c00100,0x220400,0x11000a03,0x7c00100,0x220402,0x11000a03,0x7c00100,0x250400,0x11000a03,0x7c00500,0x230400,0x11000a03,0xc000010,";
"    0x1049400,0x11000b13,0x2802500,0x962460,0x11000b13,0x4000000,0x200000,0x11000b13,0x4000000,0x201000,0x11000b13,0x4000000,0x230400,0x11000b13,0x4000002,0x400000,";
"    0x11000b13,0x4000010,0x200000,0x11000b13,0x7c00100,0x2633800,0x11000c00,0x80000000,0x218960,0x11000c02,0x2802100,0x962460,0x11000c02,0x2802400,0x962460,0x11000c02,";
"    0x4000000,0x200000,0x11000c02,0x4000000,0x1329400,0x11000c02,0x4000000,0x1329800,0x11000c02,0x4000000,0x1500000,0x11000c02,0x6800000,0x1329800,0x11000c02,0x7c00100,";
"    0x230400,0x11000c02,0x7c00100,0x230401,0x11000c02,0x7c00100,0x230402,0x11000c02,0x7c00500,0x230400,0x11000c02,0x7d00100,0x230400,0x11000f01,0x2802400,0x962460,";
"    0x11000f0a,0x2802100,0x962460,0x11000f0a,0x2802400,0x962460,0x11000f0a,0x2806400,0x962460,0x11000f0a,0x4000000,0x200000,0x11000f0a,0x6800100,0x962540,0x11000f0a,";
"    0x7c00100,0x230400,0x11000f0a,0x7c00100,0x230401,0x11001004,0x2802100,0x962460,0x11001004,0x2802400,0x962460,0x11001004,0x2806400,0x962460,0x11001004,0x4000000,";
"    0x200000,0x11001004,0x4000000,0x1500000,0x11001004,0x6800100,0x962540,0x11001004,0x6800100,0x962541,0x11001004,0x7c00100,0x230400,0x11001004,0x7c00100,0x230401,";
"    0x11001110,0x2802100,0x962460,0x11001110,0x2802400,0x962460,0x11001110,0x2806400,0x962460,0x11001110,0x6800100,0x962540,0x11001110,0x7c00100,0x230400,0x11001110,";
"    0x7c00100,0x230401,0x1100120f,0x2802100,0x962460,0x1100120f,0x2802400,0x962460,0x1100120f,0x2806400,0x962460,0x1100120f,0x6800100,0x962540,0x1100120f,0x7c00100,";
"    0x230400,0x1100131f,0x2802100,0x962460,0x1100131f,0x2802400,0x962460,0x1100131f,0x2806400,0x962460,0x1100131f,0x4000000,0x200000,0x1100131f,0x6800000,0x1329800,";
"    0x1100131f,0x6800100,0x962540,0x1100131f,0x6800100,0x962541,0x1100131f,0x7c00100,0x230400,0x1100131f,0x7c00100,0x230401,0x11001423,0x2802100,0x962460,0x11001423,";
"    0x2806400,0x962460,0x11001423,0x6800100,0x962540,0x11001423,0x6800100,0x962541,0x11001423,0x7c00100,0x230400,0x11001423,0x7c00100,0x230401,0x11001524,0x2802100,";
"    0x962460,0x11001524,0x2802100,0x962461,0x11001524,0x2806400,0x962460,0x11001524,0x6800000,0x1329800,0x11001524,0x6800100,0x962540,0x11001524,0x7c00100,0x230400,";
"    0x11001615,0x2802100,0x962460,0x11001615,0x2806400,0x962460,0x11001615,0x6800100,0x962540,0x11001615,0x6800100,0x962541,0x11001615,0x7c00100,0x230400,0x1100171a,";
"    0x2802100,0x962460,0x1100171a,0x2806400,0x962460,0x1100171a,0x6800000,0x1329800,0x1100171a,0x6800100,0x962540,0x1100171a,0x6800100,0x962541,0x1100171a,0x7c00100,";
"    0x230400,0x11001900,0x4000000,0x1600000,0x11001926,0x2802100,0x1862460,0x11001926,0x2802400,0x1862460,0x11001926,0x2806100,0x1862460,0x11001926,0x4000000,0x200000,";
"    0x11001926,0x4000010,0x400000,0x11001926,0x6800000,0x1329800,0x11001926,0x7800100,0x1830142,0x11001926,0x7c00100,0x1830000,0x11001926,0x7c00900,0x1830000,0x11001926,";
"    0x7e00100,0x1830000,0x11001a18,0x2802100,0x1862460,0x11001a18,0x2802400,0x1862460,0x11001a18,0x6800000,0x1329800,0x11001a18,0x7800100,0x1830142,0x11001a18,0x7c00100,";
"    0x1830000,0x11001a18,0x7c00100,0x1830002,0x11001a18,0x7c00900,0x1830000,0x11001a18,0x7e00100,0x1830000,0x11001d0c,0x7c00100,0x230400,0x11001d0c,0x7c00100,0x250400,";
"    0x11001e12,0x7c00100,0x2230500,0x11001e12,0x7c00100,0x2330520,0x11001e12,0x7c80100,0x2330520,0x11002619,0x7c00100,0x220401,0x11002619,0x7c00100,0x220402,0x11002619,";
"    0x7c00100,0x250401,0x1100270e,0x4000400,0x200001,0x1100270e,0x4000400,0x200002,0x1100270e,0x4000400,0x500001,0x1100270e,0x7c00100,0x220401,0x1100270e,0x7c00100,";
"    0x250401,0x11002800,0x80000,0x918820,0x11002800,0x80000,0x1c18020,0x11002800,0x180000,0x918820,0x11002800,0x4000001,0x445801,0x11002800,0x4000001,0x445802,";
"    0x11002800,0x4000001,0xc4000b,0x11002800,0x6800000,0x201c00,0x11002800,0x6800020,0x201c00,0x11002800,0x24000000,0x200000,0x11002800,0x24000000,0x200002,0x11002800,";
"    0x24000000,0x810000,0x11002800,0x24000000,0x1410000,0x11002800,0x24000000,0x1500000,0x11002800,0x24000000,0x1500002,0x11002800,0x24000002,0x400000,0x11002800,0x24000006,";
"    0xc0000b,0x11002800,0x24000008,0x1410000,0x11002800,0x24000008,0x1710000,0x11002800,0x24000020,0x1001400,0x11002800,0x24000020,0x1500002,0x11002800,0x2c000010,0x1248000,";
"    0x11002800,0x2c000010,0x15248002,0x11002800,0x40000001,0x63b020,0x11002800,0x40080000,0x918820,0x11002801,0x80000,0xaa65620,0x11002801,0x82000,0x962460,0x11002900,";
"    0x4000000,0x20000e,0x11002900,0x4000000,0x20000f,0x11002900,0x4000020,0x20000e,0x11002900,0x4000020,0x20000f,0x11002900,0x4000020,0x81000e,0x11002900,0x4000020,";
"    0x81000f,0x11002900,0x4000020,0x141000e,0x11002900,0x4000020,0x141000f,0x11002900,0x4000022,0x20000e,0x11002900,0x4000022,0x20000f,0x11002a00,0x4000000,0x1500000,";
"    0x11002a00,0x4000000,0x1600000,0x11002a00,0x4000000,0x1600002,0x11002b01,0x2000,0x962460,0x11002b01,0x2802020,0x962460,0x11002c00,0x4000000,0x200000,0x11002c00,";
"    0x4000000,0x200002,0x11002c00,0x4000000,0x20000f,0x11002c00,0x4000020,0x200000,0x11002c00,0x7c00000,0x200000,0x11002c00,0x7c00020,0x200000,0x11002c00,0x7c00120,";
"    0x220405,0x11002c00,0x7c00120,0x230402,0x11002c00,0x7c00120,0x250402,0x11002c00,0x7c00120,0x250405,0x11002c19,0x7c00100,0x250400,0x11002c19,0x7c00100,0x250401,";
"    0x11002d00,0x4000000,0x100006,0x11002d00,0x4000000,0x200006,0x11002d19,0x7c00100,0x220402,0x11002d19,0x7c00100,0x230400,0x11002d19,0x7c00100,0x250402,0x11002e00,";
"    0x24000000,0x200000,0x11002e00,0x24000020,0x200000,0x11002e00,0x24000020,0x200001,0x11002e00,0x24000020,0x14200000,0x11002f00,0x24000020,0x200000,0x11002f00,0x24000020,";
"    0x200001,0x11002f00,0x24000020,0x200002,0x11002f00,0x24000020,0xf00000,0x11002f00,0x24000020,0x1600000,0x11002f00,0x24000022,0x1600000,0x11003000,0x24000000,0x200000,";
"    0x11003000,0x24000000,0x14200000,0x11003000,0x24000020,0x200000,0x11003000,0x24000020,0x810000,0x11003000,0x24000020,0x1410000,0x11003100,0x24000000,0x200000,0x11003200,";
"    0x24000000,0x200000,0x11003300,0x4000000,0x100003,0x11003400,0x24000000,0x100000,0x11003400,0x24000000,0x200000,0x11003500,0x24000000,0x200000,0x11003600,0x24000000,";
"    0x200000,0x11003600,0x24000000,0x14200000,0x11003600,0x24000020,0x200000,0x11003700,0x24000000,0x200000,0x11003700,0x24000000,0x4200000,0x11003700,0x24000000,0x4e00000,";
"    0x11003700,0x24000000,0x14200000,0x11003700,0x24000000,0x14e00000,0x11003700,0x24000000,0x96800000,0x11003700,0x24000020,0x4200000,0x11003800,0x4000000,0x100000,0x11003800,";
"    0x24000000,0x200000,0x11003800,0x24000000,0xb00000,0x11003800,0x24000000,0x1710000,0x11003800,0x24000000,0x4200000,0x11003800,0x24000000,0x4e00000,0x11003800,0x24000000,";
"    0x14200000,0x11003800,0x24000000,0x14b00000,0x11003800,0x24000000,0x14e00000,0x11003800,0x24000000,0x96800000,0x11005003,0x7c00100,0x220402,0x11005013,0x2802500,0x962460,";
"    0x11005013,0x4000020,0x200005,0x11005013,0x7c00100,0x2633801,0x11005013,0x7c00100,0x2633802,0x11005013,0x7c00100,0x2633805,0x11005019,0x7c00100,0x220402,0x11005100,";
"    0x24000000,0x810000,0x11005100,0x24000000,0x1410000,0x11005102,0x7000100,0x230408,0x11005102,0x7c00100,0x230404,0x11005102,0x7c00100,0x230407,0x11005102,0x7c00100,";
"    0x230408,0x11005102,0x7c00100,0x230409,0x11005201,0x2802400,0x962460,0x11005500,0x80000,0x1e18820,0x11005502,0x7000100,0x230408,0x11005502,0x7c00100,0x230404,";
"    0x11005502,0x7c00100,0x230407,0x11005502,0x7c00100,0x230408,0x11005502,0x7c00100,0x230409,0x11005667,0x1000,0,0x11020200,0x80004,0x418820,0x11020200,";
"    0x4000000,0x100006,0x11020200,0x4000000,0x10000f,0x11020200,0x4000400,0x100002,0x11020200,0x4000400,0x500002,0x11020200,0x6800c00,0x101000,0x11020200,0x24000000,";
"    0x100000,0x11020200,0x24000000,0x1400000,0x11020200,0x24000000,0x1500000,0x11020200,0x24000000,0x1600000,0x11020200,0x24000000,0x14200000,0x11020200,0x24000020,0x100000,";
"    0x11020200,0x24000020,0x1600000,0x11020219,0x7c00100,0x12040f,0x11020219,0x7c00100,0x220400,0x11020219,0x7c00100,0x220401,0x11020219,0x7c00100,0x250400,0x11020319,";
"    0x7c00100,0x220400,0x11020319,0x7c00100,0x220401,0x11020319,0x7c00100,0x220402,0x11020319,0x7c00100,0x250400,0x11020319,0x7c00100,0x250402,0x11020319,0x7d00100,";
"    0x220402,0x11020419,0x7c00100,0x220401,0x11020519,0x7c00100,0x220400,0x11020600,0x4000400,0x100002,0x11020600,0x4000400,0x200400,0x11020600,0x7c00500,0x130400,";
"    0x11020600,0x7c00d00,0x130400,0x11020701,0x2802400,0x962460,0x11020701,0x2802400,0x962461,0x11020701,0x2802400,0xc62460,0x1102080e,0x7c00100,0x220400,0x1102080e,";
"    0x7c00100,0x250400,0x11020908,0x7c00100,0x220400,0x11020908,0x7c00100,0x220401,0x11020908,0x7c00100,0x250400,0x11020908,0x7c00100,0x250401,0x11022800,0x24000000,";
"    0x100000,0x11022800,0x24000000,0x200000,0x11022800,0x24000000,0x200002,0x11022800,0x24000000,0x401000,0x11022800,0x24000000,0xf00002,0x11022800,0x24000000,0xf0ac02,";
"    0x11022800,0x24000000,0x1500000,0x11022800,0x24000002,0x100000,0x11022800,0x24000002,0x370000,0x11022800,0x24000002,0x470000,0x11022800,0x24000006,0x400000,0x11022800,";
"    0x24000008,0x1710000,0x11022800,0x24000008,0x1712c00,0x11022800,0x24000020,0x100000,0x11022800,0x24000020,0x1500000,0x11022800,0x24000020,0x1500002,0x11022900,0x4000000,";
"    0x10000e,0x11022900,0x4000000,0x10000f,0x11022919,0x7c00100,0x12040f,0x11022c00,0x4000000,0x100002,0x11022c00,0x4000000,0x1500002,0x11022c00,0x4000000,0x1600002,";
"    0x11022c00,0x4000000,0x1410000f,0x11022c00,0x7c00120,0x120405,0x11022c0e,0x7c00100,0x250401,0x11022c19,0x7c00100,0x150401,0x11022d00,0x4000000,0x100006,0x11022d00,";
"    0x4000000,0x200006,0x11022d19,0x7c00100,0x120402,0x11022d19,0x7c00100,0x150402,0x11022e00,0x24000000,0x200000,0x11022e00,0x24000020,0x100000,0x11022e00,0x24000020,";
"    0x14100000,0x11022f00,0x24000020,0x100000,0x11022f00,0x24000020,0x100001,0x11022f00,0x24000020,0x100002,0x11023000,0x24000000,0x100000,0x11023300,0x4000000,0x100002,";
"    0x11023300,0x4000000,0x100003,0x11023300,0x4000100,0x120403,0x11023300,0x4000100,0x150403,0x11023300,0x4000100,0x14150403,0x11023400,0x24000000,0x100000,0x11023500,";
"    0x24000000,0x100000,0x11023600,0x24000000,0x100000,0x11023600,0x24000020,0x100000,0x11023600,0x24000020,0x14100000,0x11023700,0x24000000,0x4100000,0x11023700,0x24000000,";
"    0x4e00000,0x11023700,0x24000000,0x14100000,0x11023700,0x24000000,0x14e00000,0x11023700,0x24000020,0x100000,0x11023700,0x24000020,0x4100000,0x11023700,0x24000020,0x14100000,";
"    0x11023800,0x4000000,0x100000,0x11023800,0x24000000,0x200000,0x11024e67,0,0,0x11025600,0x4000000,0x100000,0x11042a00,0x4000000,0x1600000,0x11045700,";
"    0x4000000,0x20000a,0x11045700,0x4000020,0x20000a,0x11045712,0x7c00100,0xe3040a,0x11045712,0x7c80100,0xe3040a,0x11045716,0x7c00100,0xe30c0a,0x11045716,0x7c00100,";
"    0x2530c0a,0x11063d00,0x4000001,0x445811,0x11065700,0x4000000,0x810011,0x11065700,0x4000000,0xe00011,0x11065700,0x4000000,0x1410011,0x11065700,0x4000000,0x1500011,";
"    0x11065700,0x4000000,0x1600011,0x11065700,0x4000006,0xe70011,0x11065700,0x4000008,0xe00011,0x11065700,0x4000008,0xe02c11,0x11065700,0x4000010,0x871411,0x11065700,";
"    0x4000010,0x1201411,0x11065700,0x4000010,0x1271011,0x11065700,0x4000020,0xe00011,0x11065700,0x4000400,0xe00011,0x11065700,0x4000420,0xe00011,0x11065700,0x6800000,";
"    0xe01c11,0x11065700,0x6800040,0xe29811,0x11065700,0xc000010,0x80ac11,0x11065700,0xc000010,0xb48011,0x11065719,0x7c00100,0xe20411,0x11065719,0x7c00100,0xe50411,";
"    0x11065719,0x7c00140,0xe20411,0x11065719,0x7c00140,0xe50411,0x11080100,0x6800000,0x201c00,0x11080100,0x68000c0,0x19329800,0x11080100,0x24000000,0x200000,0x11080100,";
"    0x24000000,0x810000,0x11080100,0x24000000,0x1410000,0x11080100,0x24000000,0x1500000,0x11080100,0x24000000,0x1600000,0x11080100,0x24000000,0x1b00000,0x11080100,0x24000000,";
"    0x2410000,0x11080100,0x24000000,0x18200000,0x11080100,0x24000006,0xd70000,0x11080100,0x24000008,0x1713c00,0x11080100,0x24000008,0x1714000,0x11080100,0x24000010,0x1001400,";
"    0x11080100,0x24000010,0x1071000,0x11080100,0x24000010,0x1071400,0x11080100,0x24000020,0x200000,0x11080100,0x24000020,0x400000,0x11080100,0x24000020,0x1600000,0x11080100,";
"    0x24000400,0x200000,0x11080100,0x24000420,0x200000,0x11080100,0x2c000010,0xb48000,0x11080100,0x2c000010,0x100ac00,0x11080100,0x44000001,0x1a45800,0x11080119,0x7c00100,";
"    0x220400,0x11080119,0x7c00100,0x250400,0x11080119,0x7c001c0,0x220400,0x11080119,0x7c001c0,0x250400,0x11080200,0x4000400,0x200002,0x11080200,0x24000000,0x200000,";
"    0x11080200,0x24000000,0x1500000,0x11080200,0x24000000,0x1600000,0x11080200,0x24000020,0x200000,0x110a1e12,0x7c00100,0x2130480,0x110a1e12,0x7c80100,0x2130480,0x110a3000,";
"    0x24000000,0x34e00000,0x110a3000,0x24100000,0x810001,0x110a3000,0x24100000,0x1410001,0x110a3700,0x24000000,0x34200000,0x110a3d00,0x4000000,0xe00000,0x110a3d00,0x4000000,";
"    0xe00002,0x110a3d00,0x24000000,0xe00000,0x110a3d11,0x7c00300,0xe30000,0x110a3d11,0x7c00900,0x1230400,0x110a3d12,0x2802400,0x962460,0x110a3e14,0x7c00100,0xe30000,";
"    0x110a3e14,0x7c00100,0xe30001,0x110a3e14,0x7c00100,0x2530000,0x110a3e14,0x7c00900,0x1230000,0x110a3e14,0x7c00900,0x1230001,0x110a3f16,0x7c00100,0xe30c00,0x110a3f16,";
"    0x7c00100,0xe30c01,0x110a3f16,0x7c00100,0x2530c00,0x110a3f16,0x7c00900,0x1230c00,0x110a3f16,0x7c00900,0x1230c01,0x110a4005,0x7c00100,0xe30400,0x110a4112,0x7c00100,";
"    0xe30402,0x110a4112,0x7c80100,0xe30402,0x110a4400,0x4000000,0xe00000,0x110a4412,0x4000000,0xe00002,0x110a4412,0x4000000,0xe00003,0x110a4416,0x4000000,0xe00c03,";
"    0x110a4500,0x4000000,0xe0000d,0x110a4516,0x4000000,0xe00c0d,0x110a4711,0x7c40300,0xe30000,0x110a4f11,0x7c00300,0xe30001,0x110a4f11,0x7c40300,0xe30000,0x110a5300,";
"    0x4000000,0x810010,0x110a5300,0x4000000,0xe00002,0x110a5300,0x4000000,0xe00010,0x110a5300,0x4000000,0x1410010,0x110a5300,0x4000002,0xe70010,0x110a5300,0x4000008,";
"    0x810010,0x110a5300,0x4000008,0x1410010,0x110a5300,0x6800000,0xe01c02,0x110a5300,0x6800000,0xe01c10,0x110a5400,0x4000000,0x81000c,0x110a5400,0x4000000,0xe0000c,";
"    0x110a5400,0x4000000,0x141000c,0x110a5400,0x4000000,0x150000c,0x110a5400,0x4000000,0x160000c,0x110a5400,0x4000002,0xe7000c,0x110a5400,0x4000010,0x87140c,0x110a5400,";
"    0x4000010,0xe7000c,0x110a5400,0x4000010,0x120140c,0x110a5400,0x4000010,0x127100c,0x110a5400,0x4000020,0xe0000c,0x110a5400,0x4000026,0xe7000c,0x110a5400,0xc000010,";
"    0x80ac0c,0x110a5400,0xc000010,0xb4800c,0x11400c0c,0x4000010,0xb00000,0x11400c0c,0x4000010,0x1071400,0x11400c0c,0xc000010,0xb48000,0x11400c16,0x7c00900,0x230400,";
"    0x11400f40,0xc000010,0x448000,0x11400f54,0xc000010,0x448000,0x11401d89,0x4000000,0x200000,0x11403dbf,0x4000000,0xe00000,0x114457b4,0x4000004,0x120000a,0x114457b4,";
"    0x4000008,0x81000a,0x114457b4,0x4000008,0x141000a,0x114457b4,0x4000010,0x87000a,0x114457b4,0xc000010,0x84800a,0x114457bd,0x3802500,0x126246a,0x114457bd,0x7c00d00,";
"    0x2530c0a,0x114a3db4,0x24000000,0x810000,0x114a3db4,0x24000000,0x1410000,0x114a3db4,0x24000008,0x810000,0x114a3db4,0x24000008,0x1410000,0x114a3db4,0x24000010,0x870000,";
"    0x114a3db4,0x2c000010,0x848000,0x114a3dba,0x4000000,0xe00000,0x114a3dba,0x24000000,0xe00000,0x114a3dba,0x24000002,0x1200000,0x114a3dba,0x24000002,0x14e00000,0x114a3dba,";
"    0x24000008,0x810000,0x114a3dba,0x24000008,0x1410000,0x114a3dbd,0x7c00900,0x930c00,0x114a3dbd,0x7c00900,0xe30c00,0x114a3dbf,0x7c00300,0xe30000,0x114a3ebd,0x7000400,";
"    0x1200c02,0x114a3fb4,0x4000004,0x1200000,0x114a3fbd,0x7c00d00,0x2530c00,0x114a42bf,0x4000000,0xe00000,0x114a42bf,0x4000000,0xe0000f,0x114a44bf,0x4000000,0xe00002,";
"    0x114a44bf,0x4000000,0xe00003,0x114a44bf,0x4000000,0x14e00003,0x114a45bf,0x4000000,0xe00002,0x114a45bf,0x4000000,0xe0000d,0x1180090a,0x2802400,0x962460,0x11800c1e,";
"    0x2802100,0x962460,0x11800c1e,0x2802500,0x962460,0x11800f27,0x2802400,0x962460,0x11800f34,0x2802400,0x962460,0x11820700,0x2802400,0x962460,0x11820700,0x2802500,";
"    0x962460,0x118a3dc0,0x2802400,0x962460,0x118a3ebd,0x2802400,0x962460,0x11c00904,0x2802400,0x962460,0x11c00908,0x2802400,0x962460,0x11c00c20,0xc000010,0xb48000,";
"    0x11c00c23,0x6800000,0x1329800,0x11c00f6d,0x6800000,0x1329800,0x11c01072,0x6800000,0x1329800,0x11c01176,0x6800000,0x1329800,0x11c0127a,0x6800000,0x1329800,0x11c0147e,";
"    0x4000000,0x200000,0x11c0147e,0x6800000,0x1329800,0x11c01682,0x6800000,0x1329800,0x11c051fa,0x7c00100,0x230408,0x20000067,0x1000,0,0x20000b13,0x2802400,";
"    0x962460,0x20000b13,0x2802500,0x962460,0x20001b27,0x2802100,0x962460,0x20001b27,0x2802100,0x962461,0x20001b27,0x2802400,0x962460,0x20001b27,0x2806400,0x962460,";
"    0x20001b27,0x2902100,0x962462,0x20001b27,0x4000000,0x200000,0x20001b27,0x4000000,0x400000,0x20001b27,0x4000000,0x500000,0x20001b27,0x4000000,0x810000,0x20001b27,";
"    0x4000000,0xb00000,0x20001b27,0x4000000,0xc0000b,0x20001b27,0x4000000,0x1410000,0x20001b27,0x4000010,0xb00000,0x20001b27,0x4000010,0xc00000,0x20001b27,0x6800000,";
"    0x1329800,0x20001b27,0x6800100,0x462540,0x20001b27,0x6800400,0x962540,0x20001b27,0x7c00100,0x230400,0x20001b27,0x7c00100,0x230401,0x20002619,0x7c00100,0x220401,";
"    0x20002a00,0x4000000,0x1600000,0x20004b67,0,0x1900000,0x20004c67,0,0x1900000,0x20004d67,0,0x1900000,0x20006d67,0x1000,0,0x20006e67,";
"    0x1000,0,0x20026d67,0,0,0x20026e67,0,0,0x200a4a12,0x7c00100,0x1f304c1,0x200a4a12,0x7c00100,0x20304e1,0x21005600,0x4000000,";
"    0x700000,0x21022a00,0x4000000,0x1600000,0x30000419,0x7c00100,0x220400,0x30000419,0x7c00100,0x220401,0x30000419,0x7c00100,0x250400,0x30000419,0x7c00100,0x250401,";
"    0x30000519,0x7c00100,0x220400,0x30000600,0x4000400,0x200400,0x30000600,0x7c00500,0x230400,0x30000605,0x4000400,0x200400,0x3000080e,0x7c00100,0x220400,0x30000908,";
"    0x2000,0x962460,0x30000908,0x7c00100,0x220400,0x30000908,0x7c00100,0x220401,0x30000908,0x7c00100,0x250400,0x30000908,0x7c00100,0x250401,0x30000a03,0x4000006,";
"    0x400400,0x30000c02,0x4000000,0x200000,0x30000c02,0x7c00100,0x230400,0x30000d22,0x2802100,0x962460,0x30000d22,0x2802400,0x962460,0x30000d22,0x2802500,0x962460,";
"    0x30000d22,0x4000000,0x200000,0x30000d22,0x4000010,0x200000,0x30000d22,0x7c00100,0x230400,0x30000d22,0xc000010,0x248000,0x30000d22,0x80000000,0x218960,0x30000e25,";
"    0x2802500,0x962460,0x30000e25,0x7c00100,0x230400,0x30001821,0x2802100,0x962460,0x30001821,0x2806400,0x962460,0x30001821,0x4000000,0x200000,0x30001821,0x6800100,";
"    0x962540,0x30001821,0x6800100,0x962541,0x30001821,0x7c00100,0x230400,0x30001b27,0x2802100,0x962460,0x30001b27,0x2802400,0x962460,0x30001b27,0x4000000,0x200000,";
"    0x30001b27,0x4000000,0x400000,0x30001b27,0x7c00100,0x230400,0x30001c1c,0x2802100,0x1862460,0x30001c1c,0x2802400,0x1862460,0x30001c1c,0x2806400,0x1862460,0x30001c1c,";
"    0x4000000,0x200000,0x30001c1c,0x6800100,0x1862400,0x30001c1c,0x6800100,0x1862540,0x30001c1c,0x7c00100,0x1830000,0x30001c1c,0x7c00100,0x1830001,0x30001c1c,0xc000010,";
"    0x448000,0x30001f0b,0x4000000,0x200000,0x30001f0b,0x4000010,0x200000,0x30001f0b,0x4000010,0x400000,0x30001f0b,0x6800000,0x200000,0x30001f0b,0x7c00100,0x230400,";
"    0x30001f0b,0xc000010,0x248000,0x30002006,0x7c00100,0x250400,0x30002128,0x4000000,0x200000,0x30002128,0x7c00100,0x230400,0x30002128,0xc000010,0x248000,0x3000221d,";
"    0x4000000,0x810000,0x3000221d,0x4000000,0x1410000,0x3000221d,0x4000001,0x445800,0x3000221d,0x7c00100,0x230400,0x30002300,0x4000010,0x400000,0x30002320,0x7c00100,";
"    0x230400,0x30002417,0x2802100,0x1862460,0x30002417,0x2802400,0x1862460,0x30002417,0x2806400,0x1862460,0x30002417,0x2882000,0x1862460,0x30002417,0x4000000,0x200000,";
"    0x30002417,0x4000000,0x400000,0x30002417,0x4000000,0x1600000,0x30002417,0x4000010,0x400000,0x30002417,0x4000010,0x1200000,0x30002417,0x6800000,0x1329800,0x30002417,";
"    0x6800100,0x1862540,0x30002417,0x7c00100,0x1830000,0x30002417,0x7d00100,0x1830000,0x3000251b,0x80000,0xc18820,0x3000251b,0x2802100,0x962460,0x3000251b,0x3c02100,";
"    0x962460,0x3000251b,0x4000000,0x200000,0x3000251b,0x4000006,0x500000,0x3000251b,0x4000010,0x400000,0x3000251b,0x4000010,0xb70000,0x3000251b,0x4000800,0x200000,";
"    0x3000251b,0x6800000,0x1329800,0x3000251b,0x7c00100,0x230400,0x3000251b,0x7c00900,0x230400,0x3000251b,0xc000010,0xb48000,0x3000251b,0x12882000,0x962460,0x30002800,";
"    0x24000000,0x200000,0x30002800,0x2c000010,0x1248002,0x30002800,0x2c000010,0x15248002,0x30002a00,0x4000000,0x1600000,0x30002b01,0x2000,0x962460,0x30002b01,0x2000,";
"    0x8962460,0x30002c00,0x4000000,0x200000,0x30002c00,0x7c00100,0x14220405,0x30002d19,0x7c00100,0x250400,0x30002e00,0x24000000,0x200000,0x30003000,0x24000000,0x200000,";
"    0x30003000,0x24000000,0x4200000,0x30003100,0x24000000,0x200000,0x30003600,0x24000000,0x200000,0x30003700,0x24000000,0x4200000,0x3000392e,0x24000000,0x200000,0x30005013,";
"    0x7c00100,0x2633801,0x30005600,0,0x918820,0x30020600,0x4000400,0x500400,0x30020701,0x2802400,0x962460,0x30020701,0x2802400,0xc62460,0x300a3a11,0x4020000,";
"    0xe00000,0x300a3a11,0x4020000,0xe00002,0x300a3b11,0x4020000,0xe00002,0x300a3c00,0x4008000,0xe00000,0x300a3c00,0x4010000,0xe00000,0x300a3d11,0x7c00300,0xe30002,";
"    0x300a4305,0x7c00100,0xe30400,0x300a4611,0x7c40300,0xe30000,0x300a4829,0x7c00100,0xe30400,0x300a4829,0x7c00900,0x1230400,0x300a4929,0x4000000,0xe00000,0x3040258f,";
"    0x4000010,0x400000,0x3040258f,0x4000010,0xb70000,0x3040258f,0xc000010,0xb48000,0x304028af,0x4000001,0xc41c0b,0x304a3dbf,0x4000000,0xe00000,0x30800c1e,0x2802100,";
"    0x962460,0x30c01c87,0x6800000,0x1329800,0x3100080e,0x7c00120,0x220402,0x3100080e,0x7c00120,0x250402,0x31005167,0x1000,0,0x3100581e,0x4000000,0x200000,";
"    0x3100581e,0x7c00100,0x230400,0x3100590d,0x7c00100,0x230400,0x31005a09,0x7c00100,0x220400,0x31005a09,0x7c00100,0x250400,0x31005b00,0x4000000,0x200000,0x31005c00,";
"    0x80000,0x918820,0x31005c00,0x2802000,0x962460,0x31005c00,0x2802400,0x962460,0x31005c00,0x4000000,0x200000,0x31005c00,0x4000000,0x200001,0x31005c00,0x6800000,";
"    0x962540,0x31005c00,0x6800400,0x962540,0x31005c01,0x2802400,0x962460,0x31005d00,0x4000020,0x200005,0x31005d00,0x6800020,0x1329805,0x31005d00,0x7c00120,0x220405,";
"    0x31005d00,0x7c00120,0x250405,0x31006000,0x82000,0x8962460,0x31006000,0x180000,0x918820,0x310a5e11,0x7c40300,0xe30000,0x310a5f11,0x7c00300,0xe30001,0x32000419,";
"    0x7c00100,0x250400,0x3200080e,0x4000020,0x200000,0x3200080e,0x7c00100,0x220400,0x3200080e,0x7c00100,0x250400,0x32000908,0x7c00100,0x220400,0x32000908,0x7c00100,";
"    0x250400,0x32000c02,0x7c00100,0x230400,0x32000e25,0x7c00100,0x230400,0x32001d0c,0x7c00100,0x230400,0x32002800,0x80000,0x1e18820,0x32002800,0x80020,0x218820,";
"    0x32002800,0x4000001,0x445802,0x32002800,0x24000000,0x200000,0x32002800,0x24000000,0x200002,0x32002800,0x24000020,0x200000,0x32002800,0x2c000010,0x1248002,0x32002919,";
"    0x7c00100,0x22040f,0x32002a00,0x4000000,0x1600000,0x32002b01,0x2000,0x962460,0x32002b01,0x2802000,0x962460,0x32002b01,0x2802020,0x962460,0x32002c00,0x4000000,";
"    0x200000,0x32002c00,0x4000020,0x200000,0x32002c00,0x4000020,0x200005,0x32002c00,0x7c00120,0x220405,0x32002c00,0x7c00120,0x250405,0x32002e00,0x24000020,0x200000,";
"    0x32002f00,0x24000020,0x200000,0x32003000,0x24000000,0x200000,0x32003000,0x24000020,0x200000,0x32003500,0x24000000,0x200000,0x32003600,0x24000020,0x200000,0x32003600,";
"    0x24000020,0x14200000,0x32003700,0x24000000,0x200000,0x32003700,0x24000000,0x4100000,0x32003700,0x24000000,0x4200000,0x32003700,0x24000000,0x14200000,0x32003800,0x24000000,";
"    0x810000,0x32003800,0x24000000,0x1410000,0x32005102,0x4000000,0x1500008,0x32005502,0x7c00100,0x230400,0x32006108,0x7c00100,0x220400,0x32006108,0x7c00100,0x250400,";
"    0x3200622a,0x2802100,0x962460,0x3200622a,0x2806000,0x962460,0x3200622a,0x7c00100,0x230400,0x3200632b,0x2802100,0x962460,0x3200632b,0x2806000,0x962460,0x3200632b,";
"    0x7c00100,0x230400,0x3200642c,0x2802100,0x962460,0x3200642c,0x7c00100,0x230400,0x3200652d,0x2802100,0x962460,0x3200652d,0x7c00100,0x230400,0x32006600,0x24000020,";
"    0x200000,0x32006700,0x24000020,0x200000,0x32006800,0x24000020,0x200000,0x32006800,0x24000020,0x14200000,0x32006900,0x24000020,0x200000,0x32006900,0x24000020,0x810000,";
"    0x32006900,0x24000020,0x1410000,0x32006a00,0x24000020,0x200000,0x32006a00,0x24000020,0x200001,0x32006a00,0x24000020,0x200002,0x32020701,0x2882000,0xc62460,0x32023300,";
"    0x4000000,0x100000,0x32026c01,0x12882000,0x962460,0x32026c01,0x12882000,0x8962460,0x32065700,0x4000000,0x810011,0x32065700,0x4000000,0x1410011,0x32086600,0x24000020,";
"    0x810000,0x32086600,0x24000020,0x1410000,0x32086900,0x24000020,0x810000,0x32086900,0x24000020,0x1410000,0x320a3600,0x24000020,0x34200000,0x320a3d11,0x7c00100,0x1230400,";
"    0x320a3e14,0x7c00100,0xe30010,0x320a3e14,0x7c00100,0x2530000,0x320a3f16,0x7c00100,0xe30c10,0x320a4400,0x4000000,0xe00003,0x320a4929,0x4000000,0xe00000,0x320a4f11,";
"    0x7c00300,0xe30001,0x320a6b16,0x7c00100,0x2530c00,0x3240638b,0xc000010,0x448000,0x324a3dc2,0x4000000,0x14e00000,0x324a3dc2,0x7c00100,0x1230400,0x324a3fbd,0x4000002,";
"    0x1200c00,0x324a53ba,0x24000000,0xe00000,0x32820701,0x2802000,0x962460,0x40000419,0x7c00100,0x220400,0x40000519,0x7c00100,0x220400,0x40000600,0x4000400,0x200400,";
"    0x4000080e,0x7c00100,0x220400,0x4000080e,0x7c00100,0x250400,0x4000080e,0x7c00100,0x250402,0x40000c02,0x2802100,0x962460,0x40000c02,0x2802400,0x962460,0x40000c02,";
"    0x2802500,0x962460,0x40000c02,0x4000000,0x200000,0x40000c02,0x4000000,0x1071400,0x40000c02,0x7c00100,0x230400,0x40000c02,0x80000000,0x218960,0x40000d22,0x7c00100,";
"    0x230400,0x40000f0a,0x7c00100,0x230400,0x40001004,0x7c00100,0x230400,0x40001110,0x2802100,0x962460,0x40001110,0x6800100,0x962540,0x4000120f,0x2802100,0x962460,";
"    0x4000120f,0x4000000,0x1600000,0x4000120f,0x7c00100,0x230400,0x4000131f,0x7c00100,0x230400,0x40001423,0x4000000,0x200000,0x40001423,0x4000000,0x1600000,0x40001615,";
"    0x2802400,0x962460,0x40001615,0x7c00100,0x230400,0x40002417,0x2802400,0x1862460,0x40002417,0x4000000,0x200000,0x40002800,0x6800000,0x201c00,0x40002800,0x24000002,";
"    0x200000,0x40002c00,0x4000000,0x200002,0x40003000,0x24000000,0x14200000,0x40003000,0x24000020,0x200000,0x40003700,0x24000000,0x200000,0x40003700,0x24000000,0x4200000,";
"    0x40003700,0x24000000,0x14200000,0x40005a09,0x7c00100,0x220400,0x40005a09,0x7c00100,0x250400,0x40005d00,0x7c00120,0x220405,0x40006f30,0x2802100,0x962460,0x40006f30,";
"    0x2802400,0x962460,0x40006f30,0x4000000,0x200000,0x40006f30,0x6800000,0x1329800,0x40006f30,0x6800100,0x962540,0x40006f30,0x7c00100,0x230400,0x40006f30,0xc000010,";
"    0xb48000,0x40007034,0x7c00100,0x1830000,0x40007117,0x4000000,0x200000,0x40007208,0x7c00100,0x220400,0x4000720e,0x7c00100,0x220400,0x4000720e,0x7c00500,0x22040e,";
"    0x4000720e,0x7c00500,0x22040f,0x40007219,0x7c00100,0x220400,0x40007219,0x7c00500,0x220400,0x40007219,0x7c00500,0x22040e,0x40007219,0x7c00500,0x22040f,0x40007300,";
"    0x24000000,0x200000,0x40007300,0x24000000,0x14200000,0x40007400,0x4000000,0x200000,0x40007531,0x7c00100,0x230400,0x40007631,0x7c00100,0x230400,0x40007835,0x4000010,";
"    0x400000,0x40007835,0x7c00100,0x230400,0x40007933,0x7c00100,0x230400,0x40007a32,0x6800000,0x1329800,0x40007a32,0x7c00100,0x230400,0x40007b2f,0x7c00100,0x230400,";
"    0x40007c00,0x4000000,0x200000,0x40020701,0x2802400,0x962460,0x40020701,0x2802400,0xc62460,0x40023300,0x4000000,0x200000,0x40027d01,0x12882000,0x962460,0x400a3700,";
"    0x24000000,0x34200000,0x400a3700,0x24000000,0x34e00000,0x400a4400,0x4000000,0xe0000d,0x400a4412,0x4000000,0xe00002,0x400a4412,0x4000000,0xe00003,0x400a4500,0x4000000,";
"    0xe0000d,0x400a5300,0x4000000,0x810010,0x400a5300,0x4000000,0x1410010,0x404077fc,0x4000000,0x200000,0x404077ff,0x4000000,0x200000,0x404077ff,0x4000000,0x400000,";
"    0x40c0147e,0x4000000,0x200000,0x40c051fa,0x4000000,0x200000,0x41000419,0x7c00100,0x220400,0x41000419,0x7c00100,0x250400,0x4100080e,0x7c00100,0x220400,0x4100080e,";
"    0x7c00100,0x250400,0x41000908,0x7c00100,0x220400,0x41000908,0x7c00100,0x250400,0x41000b13,0x2802000,0x962460,0x41000b13,0x2802100,0x962460,0x41000b13,0x4000000,";
"    0xb00000,0x41000c02,0x2802100,0x962460,0x41000c02,0x4000000,0x1500000,0x41000c02,0xc000010,0xb48000,0x41000f0a,0x7c00100,0x230400,0x41001004,0x7c00100,0x230400,";
"    0x41001423,0x7c00100,0x230400,0x41001b27,0x4000000,0x500000,0x41001d0c,0x7c00100,0x230400,0x41001d0c,0x7c00100,0x23040f,0x41001f0b,0x2802400,0x962460,0x41001f0b,";
"    0x4000000,0x200000,0x41001f0b,0x7c00100,0x230400,0x41002800,0x24000000,0x200000,0x41002800,0x24000000,0x400000,0x41002919,0x7c00100,0x22040e,0x41002a00,0x4000000,";
"    0x1600000,0x41002b01,0x2802020,0x962460,0x41002c00,0x4000000,0x200000,0x41002c00,0x7c00120,0x220405,0x41003000,0x24000000,0x200000,0x41003700,0x24000000,0x4200000,";
"    0x41003700,0x24000000,0x14200000,0x41003700,0x24000000,0x14e00000,0x41005d00,0x7c00120,0x220405,0x41006600,0x24000020,0x200000,0x41006600,0x24000020,0x810000,0x41006600,";
"    0x24000020,0x1410000,0x41007208,0x7c00100,0x22040f,0x41007219,0x7c00100,0x220400,0x41007300,0x24000000,0x200000,0x41007e0e,0x2802000,0x962460,0x41007e0e,0x4000000,";
"    0x200000,0x41007f0e,0x4000000,0x200000,0x41007f0e,0x7c00100,0x230400,0x41008002,0x7c00100,0x230400,0x41008137,0x2802100,0x962460,0x41008137,0x4000000,0x200000,";
"    0x41008137,0x6800100,0x962540,0x41008137,0x7c00100,0x230400,0x41008301,0x2802000,0x962460,0x41008407,0x4000000,0x200000,0x41008407,0x4000000,0x400000,0x41008407,";
"    0x4000000,0xb00000,0x41008407,0x7c00100,0x220400,0x41008407,0x7c00100,0x250400,0x4100850b,0x7c00100,0x230400,0x4100860b,0x4000000,0x200000,0x4100860b,0x7c00100,";
"    0x230400,0x4100870c,0x7c00100,0x220400,0x41008838,0x7c00100,0x220400,0x41008838,0x7c00100,0x250400,0x41008939,0x2802000,0x962460,0x41008939,0x2802100,0x962460,";
"    0x41008939,0x2806000,0x962460,0x41008939,0x4000000,0x200000,0x41008939,0x4000000,0x400000,0x41008939,0x7c00100,0x230400,0x41008939,0xc000010,0x448000,0x41008a00,";
"    0x4000400,0x200400,0x41008b3b,0x4000000,0x1800000,0x41008b3b,0x6800000,0x1329800,0x41008b3b,0x7c00100,0x1830000,0x41008b3b,0x7e00100,0x1830000,0x41008c3d,0x4000010,";
"    0x400000,0x41008c3d,0x7c00100,0x230400,0x41008d0e,0x7c00100,0x22040f,0x41008d19,0x7c00100,0x220400,0x41008d19,0x7c00100,0x22040f,0x41008e00,0x24000000,0x200000,";
"    0x41008e00,0x24000000,0x400000,0x41008e00,0x24000000,0x1710000,0x41008e00,0x24000006,0x400000,0x41008f3a,0x2802100,0x962460,0x41008f3a,0x2806000,0x962460,0x41008f3a,";
"    0x4000000,0x200000,0x41008f3a,0x6800100,0x962540,0x41008f3a,0x7c00100,0x230400,0x4100903c,0x7c00100,0x230400,0x4100903c,0x7c00100,0x23040f,0x41020701,0x2802000,";
"    0x962460,0x41020701,0x2802000,0xc62460,0x410a3700,0x24000000,0x34200000,0x410a3700,0x24000000,0x34e00000,0x410a4412,0x4000000,0xe00003,0x410a4711,0x7c40300,0xe30000,";
"    0x410a4f11,0x7c00300,0xe30001,0x410a9100,0x4000000,0x800010,0x410a9100,0x4000000,0x810010,0x410a9100,0x4000000,0x870010,0x410a9100,0x4000000,0xb00010,0x410a9100,";
"    0x4000000,0xf00010,0x410a9100,0x4000000,0x1001410,0x410a9100,0x4000000,0x1071010,0x410a9100,0x4000000,0x1071410,0x410a9100,0x4000000,0x1410010,0x41408ac5,0x4000400,";
"    0x200000,0x414a82bf,0x4000000,0xe00000,0x41808300,0x2802000,0x962460,0x41c0147e,0x6800000,0x1329800,0x50000419,0x7c00100,0x220400,0x50000419,0x7c00100,0x250400,";
"    0x5000080e,0x7c00100,0x220400,0x50000908,0x7c00100,0x220400,0x50000908,0x7c00100,0x250400,0x50000b13,0x2802500,0x962460,0x50000f0a,0x7c00100,0x230400,0x50001615,";
"    0x2802100,0x962460,0x50001615,0x7c00100,0x230400,0x50002b01,0x2802020,0x962460,0x50002c00,0x4000000,0x200000,0x50002c19,0x7c00100,0x220400,0x50002d19,0x7c00100,";
"    0x220400,0x50003000,0x24000000,0x200000,0x50003000,0x24000020,0x200000,0x50003700,0x24000000,0x4200000,0x50005d00,0x7c00120,0x220405,0x50005d00,0x7c00120,0x250405,";
"    0x50006108,0x7c00100,0x220400,0x50006108,0x7c00100,0x250400,0x50006600,0x24000020,0x200000,0x50007300,0x24000000,0x200000,0x50008301,0x2802400,0x962460,0x50008a00,";
"    0x7c00500,0x230400,0x50009257,0x2802400,0x962460,0x50009257,0x4000000,0x200000,0x50009257,0x4000010,0x1071400,0x50009257,0x6800000,0x1329800,0x50009257,0x7c00100,";
"    0x230400,0x50009257,0x7c00500,0x230400,0x50009257,0x7c00900,0x230400,0x50009257,0xc000010,0xb48000,0x5000933e,0x2802100,0x962460,0x5000933e,0x2802400,0x962460,";
"    0x5000933e,0x4000000,0x200000,0x5000933e,0x4000000,0x400000,0x5000933e,0x4000010,0x400000,0x5000933e,0x6800000,0x1329800,0x5000933e,0x6800100,0x962540,0x5000933e,";
"    0x6800100,0x962541,0x5000933e,0x6804400,0x962540,0x5000933e,0x7c00100,0x230400,0x5000933e,0x7c00100,0x230401,0x5000933e,0xc000010,0x448000,0x50009419,0x7c00100,";
"    0x220400,0x50009419,0x7c00100,0x250400,0x50009500,0x4000400,0x200400,0x5000965a,0x4000000,0x500000,0x5000965a,0x7c00100,0x230400,0x5000965a,0xc000010,0xb48000,";
"    0x5000975b,0x4000000,0x200000,0x5000975b,0x4000010,0x400000,0x5000975b,0x7c00100,0x230400,0x50009865,0x7c00100,0x230400,0x50009965,0x4000010,0x400000,0x50009965,";
"    0x7c00100,0x230400,0x50409abf,0x4000000,0x200000,0x5100080e,0x7c00100,0x220400,0x5100080e,0x7c00100,0x250400,0x51000c02,0x2802100,0x962460,0x51000c02,0x4000000,";
"    0x1500000,0x51000c02,0x4000020,0x200000,0x51000c02,0x7c00100,0x230400,0x51000f0a,0x7c00100,0x230400,0x51000f0a,0x7c00500,0x230400,0x51001110,0x2802100,0x962460,";
"    0x5100131f,0x2802100,0x962460,0x51001423,0x7c00100,0x230400,0x51001524,0x2802100,0x962460,0x51001524,0x4000000,0x200000,0x51001524,0x7c00100,0x230400,0x5100171a,";
"    0x2802100,0x962460,0x5100171a,0x4000000,0x200000,0x5100171a,0x4000000,0x1500000,0x5100171a,0x7c00100,0x230400,0x51001b27,0x4000000,0x200000,0x51001b27,0x4000000,";
"    0x400000,0x51001b27,0x4000000,0x500000,0x51001b27,0x7c00100,0x230400,0x51001c1c,0x2802100,0x1862460,0x51001c1c,0x2802500,0x1862460,0x51001c1c,0x2806400,0x1862460,";
"    0x51001c1c,0x4000000,0x1800000,0x51001c1c,0x6800000,0x1329800,0x51001c1c,0x6800100,0x1862400,0x51001c1c,0x6800100,0x1862540,0x51001c1c,0x6800500,0x1862400,0x51001c1c,";
"    0x7c00100,0x1830000,0x5100251b,0x7c00100,0x230400,0x51002619,0x7c00100,0x220400,0x51002619,0x7c00100,0x250400,0x51002800,0x80020,0x218820,0x51002c00,0x4000000,";
"    0x200000,0x51002d19,0x7c00100,0x230400,0x51003700,0x24000000,0x4200000,0x51003700,0x24000000,0x4e00000,0x51005201,0x2802400,0x962460,0x51005c00,0x4000000,0x200000,";
"    0x51006108,0x7c00100,0x220400,0x51006108,0x7c00100,0x250400,0x51006600,0x24000020,0x200000,0x51006600,0x24000020,0x810000,0x51006600,0x24000020,0x1410000,0x51007300,";
"    0x24000000,0x200000,0x51007300,0x24000020,0x200000,0x51008002,0x7c00100,0x230400,0x51008301,0x2802000,0x962460,0x51008301,0x2802400,0x962460,0x51008a00,0x7c00500,";
"    0x230400,0x51008e00,0x24000000,0x200000,0x51008e00,0x24000000,0x400000,0x51008e00,0x24000000,0x810000,0x51008e00,0x24000000,0x1400000,0x51008e00,0x24000000,0x1410000,";
"    0x51008e00,0x24000000,0x1710000,0x51008e00,0x24000002,0x200000,0x51008e00,0x24000500,0x230400,0x51008e00,0x2c000010,0xb48000,0x51009419,0x7c00100,0x220400,0x51009419,";
"    0x7c00100,0x22040e,0x51009419,0x7c00100,0x22040f,0x51009419,0x7c00100,0x250400,0x51009500,0x4000400,0x200400,0x51009500,0x7c00500,0x230400,0x51009519,0x7c00100,";
"    0x220400,0x51009519,0x7c00100,0x22040f,0x51009519,0x7c00100,0x230400,0x51009519,0x7c00100,0x250400,0x51009b71,0x2802100,0x962460,0x51009b71,0x6800000,0x1329800,";
"    0x51009b71,0x6800100,0x962540,0x51009b71,0x6804400,0x962540,0x51009b71,0x7c00100,0x230400,0x51009c52,0x2802100,0x962460,0x51009c52,0x2802400,0x962460,0x51009c52,";
"    0x2802d00,0x962460,0x51009c52,0x4000010,0x400000,0x51009c52,0x6800000,0x1329800,0x51009c52,0x6800100,0x962540,0x51009c52,0x7c00100,0x230400,0x51009c52,0xc000010,";
"    0x448000,0x51009d6d,0x6800000,0x1329800,0x51009d6d,0x7c00100,0x230400,0x51009d6d,0x7c00500,0x230400,0x51009d6d,0x7c00d00,0x230400,0x51009d6d,0xc000010,0x448000,";
"    0x51009e08,0x2802100,0x962460,0x51009f63,0x4000010,0x400000,0x51009f63,0x6800000,0x1329800,0x51009f63,0x7c00100,0x230400,0x51009f63,0x7c00900,0x230400,0x51009f63,";
"    0xc000010,0x448000,0x51009f63,0xc000010,0xb48000,0x5100a008,0x2000,0x962460,0x5100a008,0x2802400,0x962460,0x5100a008,0x4000000,0x200000,0x5100a008,0x7c00100,";
"    0x220400,0x5100a008,0x7c00100,0x230400,0x5100a008,0x7c00100,0x250400,0x5100a008,0x7c00500,0x230400,0x5100a16f,0x2806400,0x962460,0x5100a16f,0x6800000,0x1329800,";
"    0x5100a16f,0x6800100,0x962540,0x5100a16f,0x7c00100,0x230400,0x5100a16f,0xc000010,0x448000,0x5100a24f,0x2802100,0x962460,0x5100a24f,0x2802400,0x962460,0x5100a24f,";
"    0x6800000,0x1329800,0x5100a24f,0x7c00100,0x230400,0x5100a24f,0xc000010,0x448000,0x5100a36e,0x2802100,0x962460,0x5100a36e,0x4000000,0x200000,0x5100a36e,0x6800100,";
"    0x962540,0x5100a36e,0x6804400,0x962540,0x5100a36e,0x7c00100,0x230400,0x5100a442,0x2802100,0x962460,0x5100a442,0x4000000,0x200000,0x5100a442,0x6800000,0x1329800,";
"    0x5100a442,0x6800100,0x962540,0x5100a442,0x7c00100,0x230400,0x5100a442,0xc000010,0x448000,0x5100a500,0x4000000,0x200000,0x5100a600,0x4000000,0x200000,0x5100a601,";
"    0x2802000,0x962460,0x5100a76b,0x7c00100,0x230400,0x5100a868,0x7c00100,0x230400,0x5100a96c,0x4000000,0x200000,0x5100a96c,0x7c00100,0x230400,0x5100aa00,0x4000000,";
"    0x4e00000,0x5100ab00,0x4000000,0x4e00000,0x51086600,0x24000020,0x810000,0x51086600,0x24000020,0x1410000,0x510a4005,0x7c00100,0xe30400,0x510a4711,0x7c40300,0xe30000,";
"    0x510a7300,0x24000000,0x34200000,0x510aaa00,0x4000000,0x34e00000,0x5140a2f3,0x4000400,0x400000,0x514a82bf,0x4000000,0xe00000,0x51802bb1,0x2802000,0x962460,0x51c00908,";
"    0x2802400,0x962460,0x51c0a008,0x2802400,0x962460,0x52000f0a,0x2802100,0x962460,0x52000f0a,0x6800100,0x962540,0x52000f0a,0x7c00100,0x230400,0x52001004,0x4000000,";
"    0x1600000,0x52001b00,0x4000000,0x200000,0x52001c1c,0x2802100,0x1862460,0x52001c1c,0x6800100,0x1862400,0x52001c1c,0x6800500,0x1862400,0x52001e12,0x7c00100,0x2230500,";
"    0x52001e12,0x7c00100,0x2330520,0x52002128,0x4000002,0x400000,0x52002128,0x7c00100,0x230400,0x52002a00,0x4000000,0x1500000,0x52002a00,0x4000000,0x1600000,0x52002d00,";
"    0x4000000,0x200006,0x52003000,0x24000000,0x200000,0x52006108,0x7c00100,0x220400,0x52006108,0x7c00100,0x250400,0x52008301,0x2802400,0x962460,0x52008407,0x2802400,";
"    0x962460,0x52008407,0x7c00100,0x220400,0x52008407,0x7c00100,0x250400,0x52008b3b,0x6800000,0x1800000,0x52008b3b,0x7c00100,0x1830000,0x52008e00,0x24000000,0x400000,";
"    0x52009419,0x7c00100,0x250400,0x5200975b,0x4000000,0x200000,0x5200ac7e,0x2802000,0x962460,0x5200ac7e,0x2802100,0x962460,0x5200ac7e,0x2802400,0x962460,0x5200ac7e,";
"    0x4000010,0x200000,0x5200ac7e,0x7c00100,0x230400,0x5200ac7e,0xc000010,0x248000,0x5200ad28,0x7c00100,0x230400,0x5200ae6a,0x2802100,0x1862460,0x5200ae6a,0x2802400,";
"    0x962460,0x5200ae6a,0x2802400,0x1862460,0x5200ae6a,0x2806000,0x1862460,0x5200ae6a,0x4000000,0x1800000,0x5200ae6a,0x6800000,0x1329800,0x5200ae6a,0x6800100,0x1862400,";
"    0x5200ae6a,0x6800100,0x1862540,0x5200ae6a,0x7c00100,0x1830000,0x5200ae6a,0x7c00900,0x1830000,0x5200ae6a,0xc000010,0x1848000,0x5200b083,0x4000010,0x400000,0x5200b083,";
"    0x7c00100,0x230400,0x5200b083,0xc000010,0x448000,0x5200b182,0x2802400,0x962460,0x5200b182,0x4000000,0x200000,0x5200b182,0x4000010,0x400000,0x5200b182,0x7c00100,";
"    0x230400,0x5200b182,0xc000010,0x448000,0x5200b30a,0x2802400,0x962460,0x5200b30a,0x4000000,0x200000,0x5200b30a,0x7c00100,0x230400,0x5200b54e,0x2802100,0x962460,";
"    0x5200b54e,0x2802400,0x962460,0x5200b54e,0x4000000,0x200000,0x5200b54e,0x4000010,0x400000,0x5200b54e,0x6800000,0x1329800,0x5200b54e,0x6800100,0x962540,0x5200b54e,";
"    0x6804400,0x962540,0x5200b54e,0x7c00100,0x230400,0x5200b54e,0xc000010,0x448000,0x5200b61c,0x4000000,0x1800000,0x5200b61c,0x6800500,0x1862400,0x5200b61c,0x7c00100,";
"    0x1830000,0x5200b61c,0x7c00900,0x1830000,0x5200b77f,0x2802100,0x1862460,0x5200b77f,0x2802400,0x1862460,0x5200b77f,0x4000000,0x1800000,0x5200b77f,0x4000010,0x1800000,";
"    0x5200b77f,0x7c00100,0x1830000,0x5200b77f,0x7c00500,0x1830000,0x5200b77f,0x7c00900,0x1830000,0x5200b77f,0x7e00100,0x1830000,0x5200b873,0x2802100,0x962460,0x5200b873,";
"    0x2806400,0x962460,0x5200b873,0x6800000,0x1329800,0x5200b873,0x6800100,0x962540,0x5200b873,0x6800400,0x962540,0x5200b873,0x7c00100,0x230400,0x5200b873,0xc000010,";
"    0x448000,0x5200b912,0x7c00100,0x2230500,0x5200b912,0x7c00100,0x2330520,0x5200ba74,0x4000000,0x200000,0x5200ba74,0x4000010,0x400000,0x5200ba74,0x7c00100,0x230400,";
"    0x5200bb85,0x4000000,0x200000,0x5200bb85,0x7c00100,0x230400,0x5200bc75,0x4000000,0x400000,0x5200bc75,0x4000010,0x400000,0x5200bc75,0x7c00100,0x230400,0x5200bd7d,";
"    0x4000000,0x200000,0x5200bd7d,0x7c00100,0x230400,0x5200be7a,0x4000000,0x200000,0x5200be7a,0x7c00100,0x230400,0x5200bf58,0x7c00100,0x230400,0x5200c002,0x4000000,";
"    0x200000,0x5200c178,0x2802000,0x962460,0x5200c178,0x2802100,0x962460,0x5200c178,0x2802400,0x962460,0x5200c178,0x2806400,0x962460,0x5200c178,0x4000000,0x200000,";
"    0x5200c178,0x6800100,0x962540,0x5200c178,0x7c00100,0x230400,0x5200c178,0x7c00100,0x230401,0x5200c178,0xc000010,0x448000,0x5200c178,0x80000000,0x218960,0x5200c247,";
"    0x7c00100,0x230400,0x5200c247,0x7c00100,0x830400,0x5200c247,0x7c00100,0x1430400,0x5200c300,0x4000000,0x200003,0x52022d00,0x4000000,0x100006,0x52023700,0x24000000,";
"    0x4100000,0x52023700,0x24000000,0x4e00000,0x52023700,0x24000000,0x14100000,0x52023700,0x24000000,0x14e00000,0x52023700,0x24000000,0x96800000,0x52024400,0x4000000,0x100000,";
"    0x52027300,0x24000000,0x100000,0x5202c300,0x4000000,0x100000,0x5202c300,0x4000000,0x100002,0x5202c300,0x4000000,0x100003,0x5202c300,0x4000000,0x10000d,0x5202c300,";
"    0x4000100,0x150400,0x5202c300,0x4000100,0x15040d,0x5202c300,0x4000100,0x14150400,0x520a1e12,0x7c00100,0x2130480,0x520a3700,0x24000000,0x34e00000,0x520a3800,0x24000000,";
"    0x34100000,0x520a4711,0x7c40300,0xe30000,0x520a4f11,0x7c00300,0xe30001,0x520a7300,0x24000000,0x34100000,0x520ab412,0x7c00100,0x2130480,0x520ac400,0x4000000,0xe00002,";
"    0x520ac400,0x4000000,0xe0000d,0x520ac400,0x4000000,0x34e0000d,0x520ac414,0x4000000,0xe0000d,0x520ac511,0x7c40300,0xe30000,0x5240af91,0x7c00100,0x230400,0x5240af96,";
"    0x4000400,0x200000,0x5240af98,0x6800400,0x962540,0x5240af98,0x7c00100,0x230400,0x5240afa2,0x7c00100,0x230400,0x5240afa4,0x7c00100,0x230400,0x5240b2c7,0x4000000,";
"    0x200000,0x5240b2c7,0x4000000,0x1500000,0x5240b2d2,0x4000000,0x200000,0x5240b2e0,0x4000000,0x200000,0x5240b5f6,0x7c00900,0x230400,0x524a44bf,0x4000000,0xe00003,";
"    0x5280af91,0x2802400,0x962460,0x5280af92,0x2802400,0x962460,0x5280af98,0x2802400,0x962460,0x5280af9a,0x2802400,0x962460,0x5280af9c,0x2802400,0x962460,0x52c0b3ed,";
"    0x2802400,0x962460,0x52c0b3f1,0x7c00100,0x230400,0x60000c02,0x2802100,0x962460,0x60000c02,0x7c00100,0x230400,0x60000f0a,0x2802100,0x962460,0x60000f0a,0x6800100,";
"    0x962540,0x60000f0a,0x7c00100,0x230400,0x6000131f,0x4000000,0x200000,0x6000171a,0x7c00100,0x230400,0x6000171a,0x7c00100,0x230560,0x60001b27,0x2802100,0x962460,";
"    0x60001b27,0x4000000,0xc00000,0x60001b27,0x7c00100,0x230400,0x60001f0b,0x2802400,0x962460,0x60002919,0x7c00100,0x22040e,0x60002a00,0x4000000,0x1600000,0x60003000,";
"    0x24000000,0x14200000,0x60003000,0x24000000,0x14e00000,0x60003700,0x24000000,0x4200000,0x60003800,0x24000000,0x1710000,0x60005102,0x4000000,0x200000,0x60006108,0x7c00100,";
"    0x220400,0x60006108,0x7c00100,0x250400,0x60006600,0x24000020,0x200000,0x60008301,0x2802000,0x962460,0x6000903c,0x2806000,0x962460,0x6000903c,0x4000000,0x400000,";
"    0x60009519,0x7c00100,0x220400,0x60009519,0x7c00100,0x250400,0x6000a008,0x7c00100,0x220400,0x6000a008,0x7c00100,0x250400,0x6000c300,0x4000000,0x3a703580,0x6000c654,";
"    0x2802000,0x962460,0x6000c654,0x4000010,0x200000,0x6000c654,0x7c00100,0x230400,0x6000c73f,0x2802000,0x962460,0x6000c73f,0x2802100,0x962460,0x6000c73f,0x4000000,";
"    0x200000,0x6000c73f,0x6800100,0x962540,0x6000c73f,0x6804000,0x962540,0x6000c73f,0x7c00100,0x230400,0x6000c80b,0x7c00100,0x230400,0x6000c941,0x2802100,0x962460,";
"    0x6000c941,0x2806000,0x962460,0x6000c941,0x4000000,0x200000,0x6000c941,0x4000010,0x200000,0x6000c941,0x6800000,0x1329800,0x6000c941,0x6800100,0x962540,0x6000c941,";
"    0x7c00100,0x230400,0x6000c941,0xc000010,0x448000,0x6000ca82,0x7c00100,0x230400,0x6000cc00,0x4000000,0x4e00000,0x6000d000,0x4000000,0x200000,0x6002c300,0x4000000,";
"    0x100000,0x6002c300,0x4000000,0x10000d,0x6002c300,0x4000100,0x150400,0x6002c300,0x4000100,0x15040d,0x6002c300,0x4000100,0x14150400,0x600a3000,0x24000000,0x34200000,";
"    0x600a3000,0x24000000,0x34e00000,0x600a3700,0x24000000,0x34200000,0x600a3800,0x24000000,0x34200000,0x600a3800,0x24000000,0xb6800000,0x600a4305,0x7c00100,0xe30400,0x600ac300,";
"    0x4000000,0x34100000,0x600ac400,0x4000000,0x14e0000d,0x600ac400,0x4000000,0x34e0000d,0x600acb14,0x7c00100,0xe30000,0x600acb16,0x7c00100,0xe30c00,0x600acc00,0x4000000,";
"    0x34e00000,0x600acd00,0x4000000,0x34200000,0x600acd00,0x4000000,0x34e00000,0x600acd00,0x4000000,0xb6800000,0x600ace00,0x4000000,0x34e00000,0x600ace00,0x4000000,0xb6800000,";
"    0x600acf00,0x4000000,0x34e00000,0x600acf00,0x4000000,0xb6800000,0x600ad111,0x7c40300,0xe30000,0x604ac4bf,0x4000000,0x34e00003,0x61000a03,0x4000000,0x1600000,0x61000c02,";
"    0x80000000,0x218960,0x6100120f,0x4000000,0x200000,0x61001a18,0x7c00100,0x1830000,0x61001d0c,0x7c00100,0x230400,0x61001d0c,0x7c00100,0x250400,0x61006600,0x24000020,";
"    0x200000,0x61008407,0x7c00100,0x220400,0x61008407,0x7c00100,0x250400,0x6100870c,0x7c00100,0x220400,0x61008e00,0x24000000,0x200000,0x61008e00,0x24000000,0x400000,";
"    0x61008e00,0x24000002,0x300000,0x6100903c,0x7c00100,0x230400,0x61009519,0x7c00100,0x220400,0x61009519,0x7c00100,0x250400,0x61009519,0x7c00500,0x22040f,0x61009b71,";
"    0x2802100,0x962460,0x61009b71,0x2806400,0x962460,0x61009b71,0x7c00100,0x230400,0x6100a008,0x2802100,0x962460,0x6100c300,0x4000000,0x20000f,0x6100cd00,0x4000000,";
"    0x200000,0x6100d202,0x2802400,0x962460,0x6100d202,0x2802500,0x962460,0x6100d202,0x7c00100,0x230400,0x6100d302,0x4000020,0x200000,0x6100d302,0x7c00120,0x230405,";
"    0x6100d476,0x2802100,0x962460,0x6100d476,0x2802100,0x962461,0x6100d476,0x2806400,0x962460,0x6100d476,0x4000000,0x400000,0x6100d476,0x6800000,0x1329800,0x6100d476,";
"    0x6800100,0x962540,0x6100d476,0x7c00100,0x230400,0x6100d476,0xc000010,0x448000,0x6100d573,0x2802100,0x962460,0x6100d573,0x2806400,0x962460,0x6100d573,0x6800100,";
"    0x962540,0x6100d573,0x7c00100,0x230400,0x6100d573,0x7c00900,0x230400,0x6100d573,0xc000010,0x448000,0x6100d68d,0x7c00100,0x230400,0x6100d756,0x7c00100,0x230400,";
"    0x6100d85c,0x2802500,0x962460,0x6100d85c,0x6800100,0x962540,0x6100d85c,0x7c00100,0x230400,0x6100d85c,0x7c00500,0x230400,0x6100d997,0x2802100,0x962460,0x6100d997,";
"    0x4000000,0x200000,0x6100d997,0x4000000,0x400000,0x6100d997,0x6800000,0x1329800,0x6100d997,0x6800100,0x962540,0x6100d997,0x6804400,0x962540,0x6100d997,0x7c00100,";
"    0x230400,0x6100d997,0x7c00100,0x230560,0x6100d997,0xc000010,0x448000,0x6100da98,0x6800000,0x1329800,0x6100da98,0x7c00100,0x230400,0x6100db71,0x4000000,0x200000,";
"    0x6100dc99,0x2802100,0x962460,0x6100dc99,0x2802400,0x962460,0x6100dc99,0x6800000,0x1329800,0x6100dc99,0x6800100,0x962540,0x6100dc99,0x6804400,0x962540,0x6100dc99,";
"    0x7c00100,0x230400,0x610a4711,0x7c40300,0xe30000,0x610a4f11,0x7c00300,0xe30001,0x610ace00,0x4000000,0x34e00000,0x6140af96,0x7c00100,0x230400,0x6140af98,0x7c00100,";
"    0x230400,0x6180af93,0x2802400,0x962460,0x62002a00,0x4000000,0x1600000,0x63002800,0x80000,0x918820,0x63c00c14,0x80000,0x918820,0x7000080e,0x7c00100,0x250400,";
"    0x70000a03,0x4000000,0x200000,0x70000c00,0x80000000,0x218960,0x70000f0a,0x7c00100,0x230400,0x70001004,0x7c00100,0x230400,0x70001524,0x2802100,0x962460,0x70001524,";
"    0x7c00100,0x230400,0x70001615,0x2802100,0x962460,0x7000171a,0x2802100,0x962460,0x70001821,0x6800000,0x1329800,0x70002320,0x7c00100,0x230400,0x70002a00,0x4000000,";
"    0x1500000,0x70002a00,0x4000000,0x1600000,0x70003000,0x24000000,0x200000,0x70003000,0x24000000,0x14200000,0x70003800,0x24000000,0x4e00000,0x70005201,0x2802400,0x962460,";
"    0x7000581e,0x7c00100,0x230400,0x70006108,0x7c00100,0x220400,0x70006108,0x7c00100,0x250400,0x70006f30,0x7c00100,0x230400,0x70007300,0x24000000,0x200000,0x70007f0e,";
"    0x4000000,0x200000,0x70008301,0x2802100,0x962460,0x70008301,0x2802400,0x962460,0x70008e00,0x24000000,0x200000,0x70008e00,0x24000000,0x400000,0x70008e00,0x24000002,";
"    0x400000,0x70008e00,0x24000008,0x1410000,0x70008e00,0x24000010,0x400000,0x70008e00,0x2c000010,0x448000,0x70009519,0x7c00100,0x220400,0x70009519,0x7c00100,0x230400,";
"    0x70009519,0x7c00100,0x250400,0x70009865,0x7c00100,0x230400,0x70009965,0x4000010,0x400000,0x70009965,0x7c00100,0x230400,0x7000a008,0x7c00100,0x220400,0x7000a008,";
"    0x7c00100,0x250400,0x7000a008,0x7c00500,0x22040f,0x7000a50e,0x4000000,0x200000,0x7000b61c,0x2802500,0x1862460,0x7000b61c,0x6800500,0x1862400,0x7000b61c,0x7c00100,";
"    0x1830000,0x7000c300,0x4000000,0x100000,0x7000c941,0x2806000,0x962460,0x7000cc00,0x4000000,0x4e00000,0x7000cd00,0x4000000,0x200000,0x7000cd00,0x4000000,0x4200000,";
"    0x7000cd00,0x4000000,0x4e00000,0x7000cd00,0x4000000,0x14200000,0x7000cd00,0x4000000,0x14e00000,0x7000cd00,0x4000000,0x96800000,0x7000cf00,0x4000000,0x4e00000,0x7000cf00,";
"    0x4000000,0x14e00000,0x7000d202,0x2802100,0x962460,0x7000d202,0x7c00100,0x230400,0x7000d997,0x7c00100,0x230400,0x7000d997,0xc000010,0x248000,0x7000dd86,0x2802400,";
"    0x962460,0x7000dd86,0x7c00100,0x230400,0x7000dd86,0xc000010,0x448000,0x7000de9f,0x4000000,0x200000,0x7000de9f,0x7c00100,0x230400,0x7000e001,0x2000,0x962460,";
"    0x7000e001,0x2802400,0x962460,0x7000e187,0x2802000,0x962460,0x7000e187,0x2802100,0x962460,0x7000e187,0x4000000,0x200000,0x7000e187,0x7c00100,0x230400,0x7000e187,";
"    0xc000010,0x448000,0x7000e288,0x7c00100,0x230400,0x7000e300,0x4000000,0x200000,0x7000e489,0x2802100,0x962460,0x7000e489,0x2802400,0x962460,0x7000e489,0x6800100,";
"    0x962540,0x7000e489,0x6800100,0x962541,0x7000e489,0x6804400,0x962540,0x7000e489,0x7c00100,0x230400,0x7000e489,0x7c00900,0x230400,0x7000e59d,0x2802100,0x962460,";
"    0x7000e59d,0x2802400,0x962460,0x7000e59d,0x4000000,0x200000,0x7000e59d,0x4000010,0x200000,0x7000e59d,0x6800100,0x962540,0x7000e59d,0x6804400,0x962540,0x7000e59d,";
"    0x7c00100,0x230400,0x7000e59d,0xc000010,0x448000,0x7000e691,0x2802100,0x962460,0x7000e691,0x2802400,0x962460,0x7000e691,0x2806400,0x962460,0x7000e691,0x6800000,";
"    0x1329800,0x7000e691,0x6800100,0x962540,0x7000e691,0x7c00100,0x230400,0x7000e700,0x4000400,0x200400,0x7000e70e,0x7c00100,0x220400,0x7000e719,0x7c00100,0x220400,";
"    0x7000e719,0x7c00500,0x22040f,0x7000e853,0x7c00100,0x230400,0x7000e9a0,0x2802400,0x962460,0x7000e9a0,0x4000000,0x200000,0x7000e9a0,0x4000000,0x500000,0x7000e9a0,";
"    0x7c00100,0x230400,0x7000ea79,0x2802400,0x962460,0x7000ea79,0x4000000,0x200000,0x7000ea79,0x4000000,0xf00000,0x7000ea79,0x4000010,0x400000,0x7000ea79,0x7c00100,";
"    0x230400,0x7000eb8c,0x2802400,0x962460,0x7000eb8c,0x4000000,0x200000,0x7000eb8c,0x7c00100,0x230400,0x7000eca3,0x2802100,0x962460,0x7000eca3,0x2806400,0x962460,";
"    0x7000eca3,0x4000000,0x200000,0x7000eca3,0x6800000,0x1329800,0x7000eca3,0x6800100,0x962540,0x7000eca3,0x7c00100,0x230400,0x7000eca3,0xc000010,0x448000,0x7000ed95,";
"    0x6800000,0x1329800,0x7000ed95,0x7c00100,0x230400,0x7000ed95,0xc000010,0x448000,0x7000ee1c,0x2802500,0x1862460,0x7000ee1c,0x6800000,0x1329800,0x7000ee1c,0x7c00100,";
"    0x1830000,0x7000ee1c,0x7c00900,0x1830000,0x7000ef8f,0x4000000,0x200000,0x7000ef8f,0x7c00100,0x230400,0x7000f08e,0x4000000,0x200000,0x7000f08e,0x7c00100,0x230400,";
"    0x7000f159,0x2802100,0x962460,0x7000f159,0x7c00100,0x230400,0x7000f200,0x4000000,0x200000,0x7000f200,0x4000000,0x1200000,0x7000f200,0x4000000,0x1710000,0x7000f34b,";
"    0x2802400,0x962460,0x7000f34b,0x4000000,0x200000,0x7000f34b,0x4000010,0x400000,0x7000f34b,0x6800000,0x1329800,0x7000f34b,0x7c00100,0x230400,0x7000f34b,0x7c00900,";
"    0x230400,0x7000f34b,0xc000010,0x448000,0x7000f490,0x4000000,0x200000,0x7000f490,0x7c00100,0x230400,0x7000f5a5,0x7c00100,0x230400,0x7000f67b,0x4000000,0x200000,";
"    0x7000f67b,0x4000010,0x200000,0x7000f67b,0x7c00100,0x230400,0x7000f8a6,0x2802100,0x962460,0x7000f8a6,0x2802400,0x962460,0x7000f8a6,0x2806400,0x962460,0x7000f8a6,";
"    0x4000000,0x500000,0x7000f8a6,0x4000010,0xb00000,0x7000f8a6,0x4000800,0x200000,0x7000f8a6,0x6800100,0x962540,0x7000f8a6,0x6800100,0x962541,0x7000f8a6,0x7c00100,";
"    0x230400,0x7000f8a6,0xc000010,0x448000,0x7000f921,0x4000000,0x200000,0x7000fa00,0x4000000,0x200000,0x7000fb9e,0x2802100,0x962460,0x7000fb9e,0x2802400,0x962460,";
"    0x7000fb9e,0x2806400,0x962460,0x7000fb9e,0x4000000,0x200000,0x7000fb9e,0x6800000,0x1329800,0x7000fb9e,0x6800100,0x962540,0x7000fb9e,0x6800100,0x962541,0x7000fb9e,";
"    0x7c00100,0x230400,0x7000fc92,0x4000000,0x200000,0x7000fc92,0x6800000,0x1329800,0x7000fc92,0x7c00100,0x220400,0x7000fc92,0x7c00100,0x230400,0x7000fc92,0x7c00100,";
"    0x250400,0x700acd00,0x4000000,0x34e00000,0x700acd00,0x4000000,0xb6800000,0x700ace00,0x4000000,0x34e00000,0x700acf00,0x4000000,0x34e00000,0x700acf00,0x4000000,0xb6800000,";
"    0x7050df01,0x4000000,0x200000,0x7050f705,0x80000,0x918820,0x7080af96,0x2802400,0x962460,0x7090df01,0x2802400,0x962460,0x70d0e403,0x2802100,0x962460,0x70d0e403,";
"    0x2802400,0x962460,0x70d0e403,0x6800100,0x962540,0x8000120f,0x7c00100,0x230400,0x80001524,0x7c00100,0x230400,0x8000171a,0x7c00100,0x230400,0x80002006,0x7c00100,";
"    0x220400,0x80002006,0x7c00100,0x250400,0x80002a00,0x4000000,0x1500000,0x80002d00,0x4000000,0x200000,0x80005208,0x2802400,0x962460,0x80005c00,0x4000000,0x200000,";
"    0x80007300,0x24000000,0x200000,0x80009519,0x7c00100,0x220400,0x80009519,0x7c00100,0x230400,0x80009519,0x7c00100,0x250400,0x80009865,0x7c00100,0x230400,0x8000a008,";
"    0x2802100,0x962460,0x8000b30a,0x4000000,0x500000,0x8000b30a,0x7c00100,0x230400,0x8000cd00,0x4000000,0x4e00000,0x8000d202,0x2802500,0x962460,0x8000d202,0x7c00100,";
"    0x230400,0x8000d68d,0x4000000,0x200000,0x8000d997,0x2802000,0x962460,0x8000d997,0x2802400,0x962460,0x8000d997,0x4000000,0x400000,0x8000d997,0x4000000,0x500000,";
"    0x8000d997,0x7c00100,0x230400,0x8000d997,0xc000010,0x448000,0x8000e489,0x2802100,0x962460,0x8000e489,0x7c00100,0x230400,0x8000e719,0x7c00100,0x220400,0x8000f8a6,";
"    0x2802100,0x962460,0x8000f8a6,0x7c00100,0x230400,0x8000f8a6,0xc000010,0x448000,0x8000fda1,0x2802100,0x1862460,0x8000fda1,0x2806400,0x1862460,0x8000fda1,0x4000000,";
"    0x1800000,0x8000fda1,0x6800000,0x1329800,0x8000fda1,0x6800100,0x1862540,0x8000fda1,0x7c00100,0x1830000,0x8000fda1,0xc000010,0x448000,0x8000fe9c,0x7c00100,0x230400,";
"    0x8000fe9c,0x7c00100,0x830400,0x8000fe9c,0x7c00100,0x1430400,0x8000ff06,0x7c00100,0x220400,0x80010165,0x7c00100,0x230400,0x800102a2,0x4000000,0x200000,0x800102a2,";
"    0x7c00100,0x230400,0x800103a4,0x7c00100,0x230400,0x800103a4,0xc000010,0x448000,0x8001044c,0x4000000,0x200000,0x8001044c,0x7c00100,0x220400,0x8001044c,0x7c00100,";
"    0x250400,0x80010670,0x2802000,0x962460,0x80010670,0x4000000,0x200000,0x80010670,0x4000010,0x400000,0x80010670,0xc000010,0x448000,0x800a4711,0x7c40300,0xe30000,";
"    0x800acd00,0x4000000,0x34e00000,0x800acd00,0x4000000,0x7a902460,0x800ace00,0x4000000,0x34e00000,0x800acf00,0x4000000,0x34e00000,0x800b0011,0x7c40300,0xe30000,0x800b0500,";
"    0x4000000,0x34e00000,0x800b0500,0x4000000,0xb6800000,0x90001615,0x7c00100,0x230400,0x9000171a,0x4000000,0x200000,0x9000171a,0x7c00100,0x230400,0x90003000,0x24000000,";
"    0x200000,0x90007f0e,0x4000000,0x200000,0x90008301,0x2802000,0x962460,0x90008e00,0x24000000,0x400000,0x90009519,0x7c00100,0x250400,0x9000a16f,0x2802100,0x962460,";
"    0x9000d200,0x80000000,0x218960,0x9000d202,0x2802000,0x962460,0x9000d202,0x2802100,0x962460,0x9000d202,0x7c00100,0x230400,0x9000e59d,0x2802100,0x962460,0x90010500,";
"    0x4000000,0xe00000,0x900107a7,0x2802100,0x962460,0x900107a7,0x2802400,0x962460,0x900107a7,0x2802c00,0x962460,0x900107a7,0x4000000,0x1400000,0x900107a7,0x6800000,";
"    0x1329800,0x900107a7,0x7c00100,0x220400,0x900107a7,0x7c00100,0x250400,0x900108a8,0x2802100,0x962460,0x900108a8,0x2806400,0x962460,0x900108a8,0x4000000,0x200000,";
"    0x900108a8,0x4000000,0x400000,0x900108a8,0x4000010,0x400000,0x900108a8,0x6800000,0x1329800,0x900108a8,0x6800100,0x962540,0x900108a8,0x7c00100,0x230400,0x900108a8,";
"    0xc000010,0x448000,0x90010908,0x7c00100,0x220400,0x90010a38,0x2802100,0x962460,0x90010ca9,0x2802100,0x962460,0x90010ca9,0x4000000,0x500000,0x90010ca9,0x4000010,";
"    0xb00000,0x90010ca9,0x6800100,0x962540,0x90010ca9,0x7c00100,0x230400,0x90010d1b,0x4000000,0x500000,0x90010eaa,0x2802100,0x962460,0x90010eaa,0x2802400,0x962460,";
"    0x90010eaa,0x2806400,0x962460,0x90010eaa,0x4000000,0x200000,0x90010eaa,0x4000000,0x400000,0x90010eaa,0x4000010,0x400000,0x90010eaa,0x6800000,0x1329800,0x90010eaa,";
"    0x6800100,0x962540,0x90010eaa,0x7c00100,0x230400,0x90010eaa,0xc000010,0x448000,0x90010fab,0x7c00100,0x220400,0x90010fab,0x7c00100,0x250400,0x9002c300,0x4000000,";
"    0x100000,0x900ac400,0x4000000,0xe0000d,0x900acd00,0x4000000,0x34e00000,0x900acd00,0x4000000,0xb6800000,0x900acf00,0x4000000,0x34e00000,0x900b0500,0x4000000,0x34e00000,";
"    0x900b0500,0x4000000,0xb6800000,0x900b0b9a,0x7c00900,0x1230400,0x900b109a,0x7c00300,0xe30000,0x900b119a,0x7c00300,0xe30000,0x90408e06,0x24000000,0x400000,0xa0001004,";
"    0x4000000,0x200000,0xa0001004,0x7c00100,0x230400,0xa000120f,0x2802100,0x962460,0xa000120f,0x2802400,0x962460,0xa000171a,0x2802100,0x962460,0xa000171a,0x2806400,";
"    0x962460,0xa0002a00,0x4000000,0x1600000,0xa0003000,0x24000000,0x200000,0xa000581e,0x7c00100,0x230400,0xa0007300,0x24000000,0x200000,0xa0008301,0x2802400,0x962460,";
"    0xa0008e00,0x24000000,0x400000,0xa000cf00,0x4000000,0x4e00000,0xa0010500,0x4000000,0x200000,0xa00114af,0x2802100,0x962460,0xa00114af,0x2802400,0x962460,0xa00114af,";
"    0x2806400,0x962460,0xa00114af,0x6800000,0x1329800,0xa00114af,0x7c00100,0x230400,0xa00114af,0x7c00100,0x230560,0xa00116b0,0x2802100,0x962460,0xa00116b0,0x2802800,";
"    0x962460,0xa00116b0,0x2806400,0x962460,0xa00116b0,0x4000000,0x400000,0xa00116b0,0x4000000,0x500000,0xa00116b0,0x4000010,0x400000,0xa00116b0,0x6800100,0x962540,";
"    0xa00116b0,0x7c00100,0x230400,0xa00116b0,0x7c00100,0x230560,0xa00116b0,0xc000010,0x448000,0xa0011722,0x7c00100,0x230400,0xa00118b1,0x2802000,0x962460,0xa00118b1,";
"    0x2802100,0x962460,0xa00118b1,0x2806400,0x962460,0xa00118b1,0x4000000,0x200000,0xa00118b1,0x4000000,0x400000,0xa00118b1,0x4000000,0x500000,0xa00118b1,0x6800100,";
"    0x962540,0xa00118b1,0x7c00100,0x230400,0xa00118b1,0x7c00100,0x230560,0xa00118b1,0xc000010,0x448000,0xa00a4005,0x7c00100,0xe30400,0xa00a4711,0x7c40300,0xe30000,";
"    0xa00ac400,0x4000000,0x4e00000,0xa00acb14,0x7c00100,0xe30000,0xa00acf00,0x4000000,0x34e00000,0xa00b0500,0x4000000,0x34e00000,0xa00b0500,0x4000000,0xb6800000,0xa00b0b96,";
"    0x7c00900,0x1230400,0xa00b1211,0x7c40300,0xe30000,0xa00b1314,0x7c00100,0xe30000,0xa00b1596,0x7c00300,0xe30000,0xa040afac,0x6800400,0x962540,0xa08083ad,0x2802400,";
"    0x962460,0xb0000a03,0x7c00100,0x220400,0xb0000b13,0x7c00100,0x2633800,0xb0001004,0x2802000,0x962460,0xb0001110,0x4000000,0x200000,0xb0001524,0x2802000,0x962460,";
"    0xb0001615,0x4000000,0x500000,0xb000251b,0x7c00100,0x230400,0xb0007300,0x24000000,0x200000,0xb0008939,0x4000000,0x200000,0xb0008939,0x7c00100,0x230400,0xb0008e00,";
"    0x24000000,0x200000,0xb0008e00,0x24000000,0x400000,0xb0008e00,0x24000010,0x400000,0xb0009257,0x2802000,0x962460,0xb0009257,0x4000000,0x1600000,0xb0009519,0x7c00100,";
"    0x220400,0xb0009519,0x7c00100,0x250400,0xb0009a00,0x4000000,0x200000,0xb000b30a,0x2802100,0x962460,0xb000b30a,0x7c00100,0x230400,0xb000c178,0x80000000,0x218960,";
"    0xb000c300,0x4000000,0x4200000,0xb000d202,0x2802000,0x962460,0xb000d476,0x6800100,0x962540,0xb000d476,0x7c00100,0x230400,0xb000e300,0x4000000,0x4e00000,0xb000fda1,";
"    0x7c00100,0x1830000,0xb0010eaa,0x2802000,0x962460,0xb00116b0,0x7c00100,0x230400,0xb0011900,0x4000000,0x4e00000,0xb0011ab2,0x2802100,0x962460,0xb0011ab2,0x2802400,";
"    0x962460,0xb0011ab2,0x2806400,0x962460,0xb0011ab2,0x4000000,0x200000,0xb0011ab2,0x6800100,0x962540,0xb0011ab2,0x7c00100,0x230400,0xb0011b0c,0x7c00100,0x230400,";
"    0xb0011cb3,0x2802100,0x962460,0xb0011cb3,0x2806400,0x962460,0xb0011cb3,0x6800000,0x1329800,0xb0011cb3,0x6800100,0x962540,0xb0011cb3,0x7c00100,0x230400,0xb0011db6,";
"    0x2802500,0x962460,0xb0011db6,0x6800000,0x1329800,0xb0011db6,0x7c00100,0x230400,0xb0011db6,0x7c00500,0x230400,0xb0011e00,0x4000000,0x200000,0xb0011e00,0x4000000,";
"    0x1500000,0xb0011fb4,0x2802100,0x962460,0xb0011fb4,0x6800100,0x962540,0xb0011fb4,0x7c00100,0x230400,0xb0011fb4,0xc000010,0x248000,0xb0012000,0x4000000,0x200000,";
"    0xb00121b5,0x4000000,0x200000,0xb00121b5,0x4000010,0x400000,0xb00121b5,0x7c00100,0x220400,0xb00121b5,0x7c00100,0x250400,0xb00121b5,0xc000010,0x448000,0xb00122b8,";
"    0x4000000,0x200000,0xb00122b8,0x7c00100,0x230400,0xb00123b7,0x2802400,0x962460,0xb00123b7,0x4000000,0x200000,0xb00123b7,0x7c00100,0x230400,0xb00123b7,0xc000010,";
"    0x248000,0xb00a4005,0x7c00100,0xe30400,0xb00a4711,0x7c40300,0xe30000,0xb00acf00,0x4000000,0x34e00000,0xb00b0500,0x4000000,0x34e00000,0xb00b0500,0x4000000,0x3ce00000,";
"    0xb00b0500,0x4000000,0xb6800000,0xb00b109a,0x7c00300,0xe30000,0xb080e47c,0x2802000,0x962460,0xc0001524,0x4000000,0x500000,0xc0001a18,0x2806400,0x1862460,0xc0001a18,";
"    0x7c00100,0x1830000,0xc0007300,0x24000000,0x200000,0xc0008e00,0x24000010,0x400000,0xc0009519,0x7c00100,0x220400,0xc0009519,0x7c00100,0x250400,0xc000c300,0x4000000,";
"    0x420000f,0xc000d85c,0x2802100,0x962460,0xc000d85c,0x6800100,0x962540,0xc000d85c,0x7c00100,0x230400,0xc000dc99,0x7c00100,0x230400,0xc000e719,0x7c00100,0x220400,";
"    0xc00107a7,0x7c00100,0x230400,0xc0010eaa,0x7c00100,0x230400,0xc00116b0,0x7c00100,0x230560,0xc0011900,0x4000000,0x4200000,0xc0012447,0,0x818820,0xc0012447,";
"    0,0xc18820,0xc0012447,0,0x1418820,0xc00125b9,0x7c00100,0x230400,0xc00126bb,0x2802100,0x962460,0xc00126bb,0x2806400,0x962460,0xc00126bb,0x4000000,";
"    0x500000,0xc00126bb,0x6800100,0x962540,0xc00126bb,0x7c00100,0x230400,0xc00127ba,0x2802400,0x962460,0xc00127ba,0x4000000,0x200000,0xc00127ba,0x6800000,0x1329800,";
"    0xc00127ba,0x7c00100,0x230400,0xc00127ba,0x7c00900,0x230400,0xc0012800,0x4000000,0x200000,0xc0012b23,0x4000000,0x200000,0xc0012b23,0x4000000,0x400000,0xc0012b23,";
"    0x4000000,0x1500000,0xc0012cbc,0x2802400,0x962460,0xc0012cbc,0x4000000,0x1600000,0xc0012cbc,0x6800000,0x1329800,0xc0012cbc,0x7c00100,0x230400,0xc00acf00,0x4000000,";
"    0x34e00000,0xc00ae300,0x4000000,0x34e00000,0xc00b0500,0x4000000,0x34e00000,0xc00b0500,0x4000000,0xb6800000,0xc00b0b00,0x4000000,0x1200000,0xc00b0b00,0x7c00900,0x1230400,";
"    0xc00b109a,0x7c00300,0xe30000,0xc00b2914,0x7c00100,0x2530000,0xc00b2916,0x7c00100,0x2530c00,0xc00b2a00,0x4000000,0x34e00000,0xc040af53,0x7c00100,0x230400,0xc0c12b7e,";
"    0x4000000,0x200000,0xc14a44bf,0x4000000,0xe0000d,0xd000131f,0x2802c00,0x962460,0xd000171a,0x7c00100,0x230400,0xd0001821,0x2802100,0x962460,0xd0007300,0x24000000,";
"    0x200000,0xd0008e00,0x24000000,0x200000,0xd0008f3a,0x2806000,0x962460,0xd0009519,0x7c00100,0x220400,0xd0009519,0x7c00100,0x250400,0xd000a500,0x4000000,0x200000,";
"    0xd000c300,0x4000000,0x4e00000,0xd000d202,0x7c00100,0x230400,0xd000d476,0x7c00100,0x230400,0xd000d997,0x2802100,0x962460,0xd000d997,0x6800100,0x962540,0xd000e001,";
"    0x2802100,0x962460,0xd000e700,0x4000400,0x200000,0xd000e719,0x7c00100,0x220400,0xd000e719,0x7c00500,0x23040f,0xd000fa00,0x4000000,0x4e00000,0xd0010eaa,0x4000010,";
"    0x400000,0xd0010eaa,0x7c00100,0x230400,0xd0012dbd,0x4000000,0x200000,0xd0012dbd,0x7c00100,0x230400,0xd0012fbe,0x2802100,0x962460,0xd0012fbe,0x2802400,0x962460,";
"    0xd0012fbe,0x2806400,0x962460,0xd0012fbe,0x4000000,0x400000,0xd0012fbe,0x6800000,0x1329800,0xd0012fbe,0x6800100,0x962540,0xd0012fbe,0x6800100,0x962541,0xd0012fbe,";
"    0x6804400,0x962540,0xd0012fbe,0x7c00100,0x230400,0xd0012fbe,0x7c00100,0x230560,0xd0012fbe,0xc000010,0x448000,0xd0013183,0x7c00100,0x230400,0xd0013200,0x4000000,";
"    0x200000,0xd0013200,0x6800000,0x1329805,0xd00134c0,0x2802100,0x962460,0xd00134c0,0x4000002,0x400000,0xd00134c0,0x7c00100,0x230400,0xd00a4305,0x7c00100,0xe30400,";
"    0xd00a4611,0x7c40300,0xe30000,0xd00a4711,0x7c40300,0xe30000,0xd00a5e11,0x7c40300,0xe30000,0xd00acf00,0x4000000,0x34e00000,0xd00b0500,0x4000000,0x34e00000,0xd00b0500,";
"    0x4000000,0xb6800000,0xd00b0b11,0x6800500,0x962540,0xd00b0bbf,0x2802200,0xc62460,0xd00b119a,0x7c00300,0xe30000,0xd00b2a00,0x4000000,0x34e00000,0xd00b2e11,0x7c40300,";
"    0xe30000,0xd00b30bf,0x7c00300,0x230000,0xd00b339a,0x7c00300,0xe30000";
"]";
"";
"propsVectorsColumns = 3";
"";
"scriptExtensions = [";
"    0x800e,0x8019,8,0x8059,8,2,8,0x8038,8,6,8,0x8019,2,0x22,0x25,0xb6,";
"    0x80c0,2,0x22,0x8025,2,0x11,2,0x22,0x54,0x79,0x7b,0xa7,0xb6,0x80b7,2,0x8022,";
"    2,0x25,0x80c0,2,0x20,2,0x80b6,4,0xa,0xf,0x10,0x15,0x19,0x1a,0x1f,0x23,";
"    0x24,0x89,0x97,0x809e,4,0xa,0xf,0x10,0x15,0x19,0x1a,0x1f,0x23,0x24,0x89,0x809e,";
"    4,0xa,0xf,0x10,0x15,0x1a,0x1f,0x21,0x23,0x24,0x3a,0x89,0x91,0x99,0x9e,0xa0,";
"    0xaf,0xb2,0xb3,0x80bb,4,0xa,0xf,0x10,0x15,0x1a,0x1f,0x21,0x23,0x24,0x30,0x3a,";
"    0x89,0x91,0x99,0x9e,0xa0,0xaf,0xb2,0xb3,0x80bb,0xa,0x78,0xa0,0x80b2,0xa,0x69,4,";
"    0x3a,0x8076,4,0x6f,0x10,0x80a4,0x10,0x74,0xf,0x809d,0xf,0x78,0x23,0x8089,0x23,0x7c,";
"    0x15,0x80bb,0x15,0x80,0x1c,0x34,0x8076,0x1c,0x84,0xc,0x8019,0x2a,0x2b,0x2c,0x802d,0x1b,";
"    0x805a,0x800a,4,0xa,0x15,0x8089,0xa,0x8089,4,0x800a,0xa,0x8097,0xa,0x15,0x1a,0x1f,";
"    0x23,0x8024,0xa,0x80bb,4,0xa,0x15,0x1f,0x24,0x89,0x9e,0x80bb,0x8004,8,0x8022,0x19,";
"    0x801b,0xa,0x19,0x8089,5,0x11,0x12,0x14,0x16,0x8029,5,0x11,0x12,0x14,0x8016,0x8011,";
"    5,0x8011,0x11,0x14,0x8016,0x11,0x8019,0xa,0xf,0x10,0x78,0x91,0x99,0x9d,0x9e,0xa0,";
"    0xa3,0x80b2,0xa,0xf,0x10,0x15,0x1a,0x78,0x91,0x99,0x9d,0x9e,0xa0,0xa3,0xb2,0x80bb,";
"    0xa,0xf,0x10,0x15,0x78,0x91,0x99,0x9d,0x9e,0xa0,0xa3,0xb2,0x80bb,0xa,0x98,0xa,";
"    0x8023,0xa,0xef,0x19,0x1c,0x804f,0x37,0x804e,2,0x8025,2,0xf8,0x2f,0x31,0x8053,0x2f,";
"    0x8031,2,0x8007,0x89,0x7c,0x8087";
"]";
""].

(** Norm2NFCData.py:1-1146 *)
Definition Norm2NFCData_lines : list string := [
"""""""\";
"Based on norm2_nfc_data.h from ICU.";
"";
"Created on June 2, 2020";
"";
"@author Eric Mader";
"""""""";
"";
"#";
"# Values used to construct the CPTrie";
"#";
"norm2_nfc_data_indexLength = 1746";
"norm2_nfc_data_dataLength = 7892";
"norm2_nfc_data_highStart = 0x2fc00";
"norm2_nfc_data_shifted12HighStart = 0x30";
"norm2_nfc_data_type = 0";
"norm2_nfc_data_valueWidth = 0";
"";
"# Do we really need these padding / reserved values?";
"# norm2_nfc_data_reserved32 = 0";
"# norm2_nfc_data_reserved16 = 0";
"";
"norm2_nfc_data_index3NullOffset = 0xc4";
"norm2_nfc_data_dataNullOffset = 0x226";
"norm2_nfc_data_nullValue = 0x1";
"";
"norm2_nfc_data_indexes = [";
"    0x50,0x4bac,0x8814,0x8914,0x8914,0x8914,0x8914,0x8914,0xc0,0x300,0xae2,0x29e0,0x3c66,0xfc00,0x1288,0x3b9c,";
"    0x3c34,0x3c66,0x300,0";
"]";
"";
"norm2_nfc_data_trieIndex = [";
"    0,0x40,0x7b,0xbb,0xfb,0x13a,0x17a,0x1b2,0x1f2,0x226,0x254,0x226,0x294,0x2d4,0x313,0x353,";
"    0x393,0x3d2,0x40f,0x44e,0x226,0x226,0x488,0x4c8,0x4f8,0x530,0x226,0x570,0x59f,0x5de,0x226,0x5f3,";
"    0x631,0x65f,0x226,0x68c,0x6cc,0x709,0x729,0x768,0x7a7,0x7e4,0x803,0x840,0x729,0x879,0x8a7,0x8e6,";
"    0x226,0x920,0x937,0x977,0x98e,0x9cd,0x226,0xa03,0xa23,0xa5e,0xa6a,0xaa5,0xacd,0xb0a,0xb4a,0xb84,";
"    0xb9f,0x226,0xbda,0x226,0xc1a,0xc39,0xc6f,0xcac,0x226,0x226,0x226,0x226,0x226,0xccf,0x226,0x226,";
"    0x226,0x226,0x226,0x226,0x226,0x226,0x226,0x226,0x226,0x226,0x226,0x226,0xcfb,0x226,0x226,0xd30,";
"    0x226,0x226,0xd4e,0x226,0xd78,0x226,0x226,0x226,0xdb4,0xdd4,0xe14,0xe53,0xe8e,0xece,0xf02,0xf2e,";
"    0x808,0x226,0x226,0xf62,0x226,0x226,0x226,0xfa2,0xfe2,0x1022,0x1062,0x10a2,0x10e2,0x1122,0x1162,0x11a2,";
"    0x11e2,0x226,0x226,0x1212,0x1243,0x226,0x1273,0x12a6,0x12e3,0x1322,0x1362,0x1398,0x13c6,0x226,0x226,0x226,";
"    0x226,0x226,0x226,0x226,0x226,0x226,0x226,0x226,0x226,0x226,0x226,0x226,0x226,0x226,0x226,0x226,";
"    0x226,0x226,0x226,0x226,0x226,0x226,0x226,0x226,0x226,0x226,0x226,0x13f1,0x226,0x226,0x226,0x226,";
"    0x226,0x226,0x226,0xcbd,0x226,0x140e,0x226,0x144e,0x226,0x226,0x226,0x226,0x226,0x226,0x226,0x226,";
"    0x148e,0x14c8,0x1506,0x1546,0x226,0x226,0x226,0x226,0x226,0x226,0x226,0x226,0x226,0x226,0x226,0x226,";
"    0x226,0x226,0x226,0x226,0x226,0x226,0x226,0x226,0x226,0x226,0x226,0x226,0x226,0x226,0x226,0x226,";
"    0x226,0x226,0x226,0x226,0x226,0x226,0x226,0x226,0x226,0x226,0x226,0x226,0x226,0x226,0x226,0x226,";
"    0x226,0x226,0x226,0x226,0x226,0x226,0x226,0x226,0x226,0x226,0x226,0x226,0x226,0x226,0x226,0x226,";
"    0x226,0x226,0x226,0x226,0x226,0x226,0x226,0x226,0x226,0x226,0x226,0x226,0x226,0x226,0x226,0x226,";
"    0x226,0x226,0x226,0x226,0x226,0x226,0x226,0x226,0x226,0x226,0x226,0x226,0x226,0x226,0x226,0x226,";
"    0x226,0x226,0x226,0x226,0x226,0x226,0x226,0x226,0x226,0x226,0x226,0x226,0x226,0x226,0x226,0x226,";
"    0x226,0x226,0x226,0x226,0x226,0x226,0x226,0x226,0x226,0x226,0x226,0x226,0x226,0x226,0x226,0x226,";
"    0x226,0x226,0x226,0x226,0x226,0x226,0x226,0x226,0x226,0x226,0x226,0x226,0x226,0x226,0x226,0x226,";
"    0x226,0x226,0x226,0x226,0x226,0x226,0x226,0x226,0x226,0x226,0x226,0x226,0x226,0x226,0x226,0x226,";
"    0x226,0x226,0x226,0x226,0x226,0x226,0x226,0x226,0x226,0x226,0x226,0x226,0x226,0x226,0x226,0x226,";
"    0x226,0x226,0x226,0x226,0x226,0x226,0x226,0x226,0x226,0x226,0x226,0x226,0x226,0x226,0x226,0x226,";
"    0x226,0x226,0x226,0x226,0x226,0x226,0x226,0x226,0x226,0x226,0x226,0x226,0x226,0x226,0x226,0x226,";
"    0x226,0x226,0x226,0x226,0x226,0x226,0x226,0x226,0x226,0x226,0x226,0x226,0x226,0x226,0x226,0x226,";
"    0x226,0x226,0x226,0x226,0x226,0x226,0x226,0x226,0x226,0x226,0x226,0x226,0x226,0x226,0x226,0x226,";
"    0x226,0x226,0x226,0x226,0x226,0x226,0x226,0x226,0x226,0x226,0x226,0x226,0x226,0x226,0x226,0x226,";
"    0x226,0x226,0x226,0x226,0x226,0x226,0x226,0x226,0x226,0x226,0x226,0x226,0x226,0x226,0x226,0x226,";
"    0x226,0x226,0x226,0x226,0x226,0x226,0x226,0x226,0x226,0x226,0x226,0x226,0x226,0x226,0x226,0x226,";
"    0x226,0x226,0x226,0x226,0x226,0x226,0x226,0x226,0x226,0x226,0x226,0x226,0x226,0x226,0x226,0x226,";
"    0x226,0x226,0x226,0x226,0x226,0x226,0x226,0x226,0x226,0x226,0x226,0x226,0x226,0x226,0x226,0x226,";
"    0x226,0x226,0x226,0x226,0x226,0x226,0x226,0x226,0x226,0x226,0x226,0x226,0x226,0x226,0x226,0x226,";
"    0x226,0x226,0x226,0x226,0x226,0x226,0x226,0x226,0x226,0x226,0x226,0x226,0x226,0x226,0x226,0x226,";
"    0x226,0x226,0x226,0x226,0x226,0x226,0x226,0x226,0x226,0x226,0x226,0x226,0x226,0x226,0x226,0x226,";
"    0x226,0x226,0x226,0x226,0x226,0x226,0x226,0x226,0x226,0x226,0x226,0x226,0x226,0x226,0x226,0x226,";
"    0x226,0x226,0x226,0x226,0x226,0x226,0x226,0x226,0x226,0x226,0x226,0x226,0x226,0x226,0x226,0x226,";
"    0x226,0x226,0x226,0x226,0x226,0x226,0x226,0x226,0x226,0x226,0x226,0x226,0x226,0x226,0x226,0x226,";
"    0x226,0x226,0x226,0x226,0x226,0x226,0x226,0x226,0x226,0x226,0x226,0x226,0x226,0x226,0x226,0x226,";
"    0x226,0x226,0x226,0x226,0x226,0x226,0x226,0x226,0x226,0x226,0x226,0x226,0x226,0x226,0x226,0x226,";
"    0x226,0x226,0x226,0x226,0x226,0x226,0x226,0x226,0x226,0x226,0x226,0x226,0x226,0x226,0x226,0x226,";
"    0x226,0x226,0x226,0x226,0x226,0x226,0x226,0x226,0x226,0x1585,0x15c3,0x15e3,0x226,0x226,0x226,0x226,";
"    0x161d,0x226,0x226,0x1645,0x1677,0x16a5,0x80c,0x16b8,0x226,0x226,0x16c8,0x1708,0x226,0x226,0x226,0x1420,";
"    0x1748,0x1750,0x1758,0x1760,0x174c,0x1754,0x175c,0x1748,0x1750,0x1758,0x1760,0x174c,0x1754,0x175c,0x1748,0x1750,";
"    0x1758,0x1760,0x174c,0x1754,0x175c,0x1748,0x1750,0x1758,0x1760,0x174c,0x1754,0x175c,0x1748,0x1750,0x1758,0x1760,";
"    0x174c,0x1754,0x175c,0x1748,0x1750,0x1758,0x1760,0x174c,0x1754,0x175c,0x1748,0x1750,0x1758,0x1760,0x174c,0x1754,";
"    0x175c,0x1748,0x1750,0x1758,0x1760,0x174c,0x1754,0x175c,0x1748,0x1750,0x1758,0x1760,0x174c,0x1754,0x175c,0x1748,";
"    0x1750,0x1758,0x1760,0x174c,0x1754,0x175c,0x1748,0x1750,0x1758,0x1760,0x174c,0x1754,0x175c,0x1748,0x1750,0x1758,";
"    0x1760,0x174c,0x1754,0x175c,0x1748,0x1750,0x1758,0x1760,0x174c,0x1754,0x175c,0x1748,0x1750,0x1758,0x1760,0x174c,";
"    0x1754,0x175c,0x1748,0x1750,0x1758,0x1760,0x174c,0x1754,0x175c,0x1748,0x1750,0x1758,0x1760,0x174c,0x1754,0x175c,";
"    0x1748,0x1750,0x1758,0x1760,0x174c,0x1754,0x175c,0x1748,0x1750,0x1758,0x1760,0x174c,0x1754,0x175c,0x1748,0x1750,";
"    0x1758,0x1760,0x174c,0x1754,0x175c,0x1748,0x1750,0x1758,0x1760,0x174c,0x1754,0x175c,0x1748,0x1750,0x1758,0x1760,";
"    0x174c,0x1754,0x175c,0x1748,0x1750,0x1758,0x1760,0x174c,0x1754,0x175c,0x1748,0x1750,0x1758,0x1760,0x174c,0x1754,";
"    0x175c,0x1748,0x1750,0x1758,0x1760,0x174c,0x1754,0x175c,0x1748,0x1750,0x1758,0x1760,0x174c,0x1754,0x1794,0x226,";
"    0x17d4,0x180f,0x226,0x226,0x226,0x226,0x226,0x226,0x226,0x226,0x226,0x226,0x226,0x226,0x226,0x226,";
"    0x226,0x226,0x226,0x226,0x226,0x226,0x226,0x226,0x226,0x226,0x226,0x226,0x226,0x226,0x226,0x226,";
"    0x226,0x226,0x226,0x226,0x226,0x226,0x226,0x226,0x226,0x226,0x226,0x226,0x226,0x226,0x226,0x226,";
"    0x226,0x226,0x226,0x226,0x226,0x226,0x226,0x226,0x226,0x226,0x226,0x226,0x226,0x226,0x226,0x226,";
"    0x226,0x226,0x226,0x226,0x226,0x226,0x226,0x226,0x226,0x226,0x226,0x226,0x226,0x226,0x226,0x226,";
"    0x226,0x226,0x226,0x226,0x226,0x226,0x226,0x226,0x226,0x226,0x226,0x226,0x226,0x226,0x226,0x226,";
"    0x226,0x226,0x226,0x226,0x226,0x226,0x226,0x226,0x226,0x226,0x226,0x226,0x226,0x226,0x226,0x226,";
"    0x226,0x226,0x226,0x226,0x226,0x226,0x226,0x226,0x226,0x226,0x226,0x226,0x226,0x226,0x226,0x226,";
"    0x226,0x226,0x226,0x226,0x184f,0x188f,0x18cf,0x190f,0x194f,0x198f,0x19cf,0x1a0f,0x1a32,0x1a72,0x226,0x226,";
"    0x226,0x226,0x226,0x226,0x226,0x226,0x226,0x226,0x1a92,0x226,0x226,0x226,0x226,0x226,0x226,0x226,";
"    0x655,0x664,0x67c,0x69b,0x6b0,0x6b0,0x6b0,0x6b4,0x226,0x226,0x226,0x226,0x226,0x226,0x226,0x226,";
"    0x226,0x226,0x226,0x226,0x226,0x226,0x226,0x226,0x226,0x226,0x226,0x226,0x226,0x226,0x226,0x226,";
"    0x226,0x226,0x226,0x226,0x226,0x226,0x226,0xbda,0x226,0x226,0x226,0x226,0x226,0x226,0x226,0x226,";
"    0x226,0x226,0x226,0x226,0x226,0x226,0x54f,0x226,0x226,0x226,0x226,0x226,0x226,0x226,0x226,0x40c,";
"    0x226,0x226,0x226,0x226,0x226,0x226,0x226,0x226,0x1ac5,0x226,0x226,0x1ad5,0x226,0x226,0x226,0x226,";
"    0x226,0x226,0x226,0x226,0x226,0x226,0xdc6,0x226,0x226,0x226,0x226,0x226,0x226,0x226,0x226,0x226,";
"    0x226,0x226,0x226,0x226,0x226,0x226,0x226,0x226,0x226,0x1ae5,0x226,0x226,0x226,0x226,0x226,0x226,";
"    0x226,0x226,0x226,0x226,0x226,0x226,0x226,0x15d6,0x226,0x226,0x226,0x226,0x226,0x226,0x226,0x226,";
"    0x226,0x1aef,0x54f,0x226,0x226,0x226,0x226,0x226,0x226,0x226,0x226,0x226,0x226,0x7eb,0x226,0x226,";
"    0x9ba,0x226,0x1aff,0x1b0c,0x1b18,0x226,0x226,0x226,0x226,0x414,0x226,0x1b23,0x1b33,0x226,0x226,0x226,";
"    0x7e0,0x226,0x226,0x226,0x226,0x1b43,0x226,0x226,0x226,0x1b4e,0x226,0x226,0x226,0x226,0x226,0x226,";
"    0x226,0x226,0x226,0x226,0x1b55,0x226,0x226,0x226,0x226,0x1b60,0x1b6f,0x8f6,0x1b7d,0x412,0x226,0x226,";
"    0x226,0x226,0x226,0x226,0x226,0x226,0x1b8b,0x798,0x226,0x226,0x226,0x226,0x226,0x1b9b,0x1baa,0x226,";
"    0x226,0x226,0x226,0x226,0x226,0x226,0x226,0x226,0x226,0x226,0x226,0x226,0x8d6,0x1bb2,0x1bc2,0x226,";
"    0x226,0x226,0x9ba,0x226,0x226,0x226,0x226,0x226,0x226,0x226,0x1bcc,0x226,0x226,0x226,0x226,0x226,";
"    0x226,0x7e6,0x226,0x226,0x226,0x226,0x226,0x226,0x226,0x226,0x226,0x226,0x226,0x226,0x226,0x1bc9,";
"    0x226,0x226,0x226,0x226,0x226,0x226,0x226,0x226,0x226,0x226,0x226,0x226,0x226,0x226,0x226,0x1bdc,";
"    0x7e0,0x226,0x226,0x226,0x226,0x226,0x226,0x226,0x226,0x226,0x84d,0x226,0x226,0x226,0x7ed,0x7ea,";
"    0x226,0x226,0x226,0x226,0x7e8,0x226,0x226,0x226,0x226,0x226,0x226,0x226,0x226,0x226,0x226,0x226,";
"    0x226,0x226,0x226,0x226,0x226,0x226,0x226,0x226,0x226,0x226,0x226,0x9ba,0x226,0x226,0x226,0x226,";
"    0x226,0x226,0x226,0x226,0x226,0x226,0x226,0x226,0x226,0x226,0x226,0x226,0xbd4,0x226,0x226,0x226,";
"    0x226,0x7ea,0x226,0x226,0x226,0x226,0x226,0x226,0x226,0x226,0x226,0x226,0x226,0x226,0x226,0x226,";
"    0x226,0x1bec,0x226,0x226,0x226,0xefb,0x226,0x226,0x226,0x226,0x226,0x226,0x226,0x226,0x226,0x226,";
"    0x226,0x226,0x226,0x226,0x226,0x226,0x226,0x226,0x226,0x226,0x226,0x226,0x226,0x226,0x226,0x226,";
"    0x226,0x226,0x226,0x226,0x226,0x1bfc,0x226,0x226,0x226,0x226,0x226,0x226,0x226,0x226,0x226,0x1bfe,";
"    0x226,0x226,0x226,0x226,0x226,0x226,0x226,0x226,0x226,0x226,0x226,0x226,0x226,0x226,0x226,0x226,";
"    0x226,0x226,0x226,0x226,0x226,0x226,0x1c0d,0x1c1d,0x1c2b,0x1c38,0x226,0x1c44,0x1c52,0x1c62,0x226,0x226,";
"    0x226,0x226,0xcea,0x226,0x226,0x226,0x226,0x226,0x226,0x226,0x226,0x226,0x226,0x226,0x226,0x226,";
"    0x226,0x226,0x226,0x226,0x226,0x226,0x226,0x226,0x226,0x226,0x226,0x226,0x226,0x226,0x1c72,0x1c7a,";
"    0x1c88,0x226,0x226,0x226,0x226,0x226,0x226,0x226,0x226,0x226,0x226,0x226,0x226,0x226,0x226,0x226,";
"    0x226,0xefb,0x226,0x226,0x226,0x226,0x226,0x226,0x226,0x226,0x226,0x226,0x226,0x226,0x226,0x226,";
"    0x4fc,0x226,0x226,0x226,0x226,0x226,0x226,0x226,0x226,0x226,0x226,0x226,0x226,0x226,0x226,0x226,";
"    0x226,0x226,0x1c98,0x226,0x226,0x226,0x226,0x226,0x226,0x1ca4,0x226,0x226,0x226,0x226,0x226,0x226,";
"    0x226,0x226,0x226,0x226,0x226,0x1cb4,0x1cc4,0x1cd4,0x1ce4,0x1cf4,0x1d04,0x1d14,0x1d24,0x1d34,0x1d44,0x1d54,";
"    0x1d64,0x1d74,0x1d84,0x1d94,0x1da4,0x1db4,0x1dc4,0x1dd4,0x1de4,0x1df4,0x1e04,0x1e14,0x1e24,0x1e34,0x1e44,0x1e54,";
"    0x1e64,0x1e74,0x1e84,0x1e94,0x1ea4,0x1eb4,0x1ec4,0x226,0x226,0x226,0x226,0x226,0x226,0x226,0x226,0x226,";
"    0x226,0x226,0x226,0x226,0x226,0x226,0x226,0x226,0x226,0x226,0x226,0x226,0x226,0x226,0x226,0x226,";
"    0x226,0x226,0x226,0x226,0x226,0x408,0x428,0xc4,0xc4,0xc4,0x448,0x457,0x46d,0x489,0x4a6,0x4c2,";
"    0x4df,0x4fc,0x51b,0x538,0xc4,0xc4,0xc4,0xc4,0xc4,0xc4,0xc4,0xc4,0xc4,0xc4,0xc4,0xc4,";
"    0xc4,0xc4,0xc4,0xc4,0xc4,0xc4,0xc4,0xc4,0xc4,0x552,0xc4,0x566,0xc4,0xc4,0xc4,0xc4,";
"    0xc4,0xc4,0xc4,0xc4,0xc4,0xc4,0xc4,0xc4,0xc4,0xc4,0xc4,0xc4,0xc4,0xc4,0xc4,0xc4,";
"    0xc4,0xc4,0xc4,0xc4,0xc4,0xc4,0xc4,0xc4,0xc4,0xc4,0x586,0xc4,0xc4,0xc4,0xc4,0xc4,";
"    0xc4,0xc4,0xc4,0x591,0x5ae,0xc4,0xc4,0xc4,0xc4,0xc4,0xc4,0x5ce,0x5e2,0xc4,0xc4,0x5f5,";
"    0xc4,0xc4,0xc4,0xc4,0xc4,0xc4,0xc4,0xc4,0xc4,0xc4,0xc4,0xc4,0xc4,0xc4,0xc4,0xc4,";
"    0xc4,0xc4,0xc4,0xc4,0xc4,0xc4,0xc4,0xc4,0xc4,0xc4,0xc4,0xc4,0xc4,0xc4,0xc4,0xc4,";
"    0x615,0x635";
"]";
"";
"norm2_nfc_data_trieData = [";
"    1,1,1,1,1,1,1,1,1,1,1,1,1,1,1,1,";
"    1,1,1,1,1,1,1,1,1,1,1,1,1,1,1,1,";
"    1,1,1,1,1,1,1,1,1,1,1,1,1,1,1,1,";
"    1,1,1,1,1,1,1,1,1,1,1,1,4,8,0xc,1,";
"    1,0x10,0x50,0x5c,0x70,0x88,0xcc,0xd0,0xec,0x108,0x144,0x148,0x15c,0x174,0x180,0x1a4,";
"    0x1e4,1,0x1ec,0x20c,0x228,0x244,0x290,0x298,0x2b0,0x2b8,0x2dc,1,1,1,1,1,";
"    1,0x2f4,0x334,0x340,0x354,0x36c,0x3b0,0x3b4,0x3d0,0x3f0,0x428,0x430,0x444,0x45c,0x468,0x48c,";
"    0x4cc,1,0x4d4,0x4f4,0x510,0x530,0x57c,0x584,0x5a0,0x5a8,0x5d0,1,1,1,1,1,";
"    1,1,1,1,1,1,1,1,1,1,1,1,1,1,1,1,";
"    1,1,1,1,1,1,1,1,1,1,1,1,1,1,1,1,";
"    1,1,1,0x5e8,1,1,1,1,1,1,1,1,1,1,1,1,";
"    1,1,1,1,1,1,1,1,1,1,1,0x128a,0x1290,0xae4,0x1296,0xafa,";
"    0xb04,0x5f4,0xb0e,0x129c,0x12a2,0xb18,0x12a8,0x12ae,0x12b4,0x12ba,0xb2e,1,0x12c0,0x12c6,0x12cc,0xb38,";
"    0xb4e,0xb60,1,0x5fc,0x12d2,0x12d8,0x12de,0xb6a,0x12e4,1,1,0x12ea,0x12f0,0xb80,0x12f6,0xb96,";
"    0xba0,0x600,0xbaa,0x12fc,0x1302,0xbb4,0x1308,0x130e,0x1314,0x131a,0xbca,1,0x1320,0x1326,0x132c,0xbd4,";
"    0xbea,0xbfc,1,0x608,0x1332,0x1338,0x133e,0xc06,0x1344,1,0x134a,0x1350,0x1356,0xc1c,0xc32,0x135d,";
"    0x1363,0x1368,0x136e,0x1374,0x137a,0x1380,0x1386,0x138c,0x1392,0x1398,0x139e,1,1,0xc48,0xc56,0x13a4,";
"    0x13aa,0x13b0,0x13b6,0x13bd,0x13c3,0x13c8,0x13ce,0x13d4,0x13da,0x13e0,0x13e6,0x13ec,0x13f2,0x13f9,0x13ff,0x1404,";
"    0x140a,1,1,0x1410,0x1416,0x141c,0x1422,0x1428,0x142e,0x1435,0x143b,0x1440,1,1,1,0x1447,";
"    0x144d,0x1453,0x1459,1,0x145e,0x1464,0x146b,0x1471,0x1476,0x147c,1,1,1,0x1482,0x1488,0x148f,";
"    0x1495,0x149a,0x14a0,1,1,1,0xc64,0xc72,0x14a6,0x14ac,0x14b2,0x14b8,1,1,0x14be,0x14c4,";
"    0x14cb,0x14d1,0x14d6,0x14dc,0xc80,0xc8a,0x14e2,0x14e8,0x14ef,0x14f5,0xc94,0xc9e,0x14fb,0x1501,0x1506,0x150c,";
"    1,1,0xca8,0xcb2,0xcbc,0xcc6,0x1512,0x1518,0x151e,0x1524,0x152a,0x1530,0x1537,0x153d,0x1542,0x1548,";
"    0x154e,0x1554,0x155a,0x1560,0x1566,0x156c,0x1572,0x1578,0x157e,0x60c,1,1,1,1,1,1,";
"    1,1,1,1,1,1,1,1,1,1,1,1,1,1,1,1,";
"    1,1,1,1,1,1,1,1,1,1,0xcd0,0xcea,1,1,1,1,";
"    1,1,1,1,1,1,1,1,1,0xd04,0xd1e,1,1,1,1,1,";
"    1,0x610,1,1,1,1,1,1,1,1,1,1,1,1,1,0x1584,";
"    0x158a,0x1590,0x1596,0x159c,0x15a2,0x15a8,0x15ae,0x15b6,0x15c0,0x15ca,0x15d4,0x15de,0x15e8,0x15f2,0x15fc,1,";
"    0x1606,0x1610,0x161a,0x1624,0x162d,0x1633,1,1,0x1638,0x163e,0x1644,0x164a,0xd38,0xd42,0x1653,0x165d,";
"    0x1665,0x166b,0x1671,1,1,1,0x1676,0x167c,1,1,0x1682,0x1688,0x1690,0x169a,0x16a3,0x16a9,";
"    0x16af,0x16b5,0x16ba,0x16c0,0x16c6,0x16cc,0x16d2,0x16d8,0x16de,0x16e4,0x16ea,0x16f0,0x16f6,0x16fc,0x1702,0x1708,";
"    0x170e,0x1714,0x171a,0x1720,0x1726,0x172c,0x1732,0x1738,0x173e,0x1744,0x174a,0x1750,0x1756,0x175c,1,1,";
"    0x1762,0x1768,1,1,1,1,1,1,0xd4c,0xd56,0xd60,0xd6a,0x1770,0x177a,0x1784,0x178e,";
"    0xd74,0xd7e,0x1798,0x17a2,0x17aa,0x17b0,1,1,1,1,1,1,1,1,1,1,";
"    1,1,1,1,1,1,1,1,1,1,1,1,1,1,1,1,";
"    1,1,1,1,1,1,1,1,1,1,1,1,1,1,1,1,";
"    1,1,1,1,1,1,1,1,1,1,1,1,1,1,1,1,";
"    1,1,1,1,1,1,0x614,1,1,1,1,1,1,1,1,1,";
"    1,1,1,1,1,1,1,1,1,1,1,1,1,1,1,1,";
"    1,1,1,1,1,1,1,1,1,1,1,1,1,1,1,1,";
"    1,1,1,1,0xfdcc,0xfdcc,0xfdcc,0xfdcc,0xfdcc,0xffcc,0xfdcc,0xfdcc,0xfdcc,0xfdcc,0xfdcc,0xfdcc,";
"    0xfdcc,0xffcc,0xffcc,0xfdcc,0xffcc,0xfdcc,0xffcc,0xfdcc,0xfdcc,0xffd0,0xffb8,0xffb8,0xffb8,0xffb8,0xffd0,0xfdb0,";
"    0xffb8,0xffb8,0xffb8,0xffb8,0xffb8,0xff94,0xff94,0xfdb8,0xfdb8,0xfdb8,0xfdb8,0xfd94,0xfd94,0xffb8,0xffb8,0xffb8,";
"    0xffb8,0xfdb8,0xfdb8,0xffb8,0xfdb8,0xfdb8,0xffb8,0xffb8,0xfe02,0xfe02,0xfe02,0xfe02,0xfc02,0xffb8,0xffb8,0xffb8,";
"    0xffb8,0xffcc,0xffcc,0xffcc,0x3c36,0x3c3c,0xfdcc,0x3c42,0x3c48,0xfde0,0xffcc,0xffb8,0xffb8,0xffb8,0xffcc,0xffcc,";
"    0xffcc,0xffb8,0xffb8,1,0xffcc,0xffcc,0xffcc,0xffb8,0xffb8,0xffb8,0xffb8,0xffcc,0xffd0,0xffb8,0xffb8,0xffcc,";
"    0xffd2,0xffd4,0xffd4,0xffd2,0xffd4,0xffd4,0xffd2,0xffcc,0xffcc,0xffcc,0xffcc,0xffcc,0xffcc,0xffcc,0xffcc,0xffcc,";
"    0xffcc,0xffcc,0xffcc,0xffcc,1,1,1,1,0x29e1,1,1,1,1,1,1,1,";
"    1,1,0x29e5,1,1,1,1,1,0x17b7,0x17bd,0x29e9,0x17c3,0x17c9,0x17cf,1,0x17d5,";
"    1,0x17db,0x17e1,0x17e9,0x618,1,1,1,0x634,1,0x644,1,0x658,1,1,1,";
"    1,1,0x674,1,0x684,1,1,1,0x688,1,1,1,0x6a0,0x17f1,0x17f7,0xd88,";
"    0x17fd,0xd92,0x1803,0x180b,0x6b4,1,1,1,0x6d4,1,0x6e4,1,0x6fc,1,1,1,";
"    1,1,0x71c,1,0x72c,1,1,1,0x734,1,1,1,0x754,0xd9c,0xdae,0x1813,";
"    0x1819,0xdc0,1,1,1,0x76c,0x181f,0x1825,1,1,1,1,1,1,1,1,";
"    1,1,1,1,1,1,1,1,1,1,1,1,1,1,1,1,";
"    1,1,1,1,1,1,1,1,1,1,1,1,1,1,1,1,";
"    1,1,1,0x182b,0x1831,1,0x1837,1,1,0x774,0x183d,1,1,1,1,0x1843,";
"    0x1849,0x184f,1,0x778,1,1,0x780,1,0x784,0x790,0x798,0x79c,0x1855,0x7ac,1,1,";
"    1,0x7b0,1,1,1,1,0x7b4,1,1,1,0x7c4,1,1,1,0x7c8,1,";
"    0x7cc,1,1,0x7d0,1,1,0x7d8,1,0x7dc,0x7e8,0x7f0,0x7f4,0x185b,0x804,1,1,";
"    1,0x808,1,1,1,0x80c,1,1,1,0x81c,1,1,1,0x820,1,0x824,";
"    1,1,0x1861,0x1867,1,0x186d,1,1,0x828,0x1873,1,1,1,1,0x1879,0x187f,";
"    0x1885,1,1,1,1,1,1,1,1,1,1,1,1,1,1,1,";
"    1,1,1,1,1,1,0x82c,0x830,0x188b,0x1891,1,1,1,1,1,1,";
"    1,1,0xffcc,0xffcc,0xffcc,0xffcc,0xffcc,1,1,1,1,1,1,1,1,1,";
"    1,1,1,1,1,1,1,1,1,1,1,1,1,1,1,1,";
"    1,1,1,1,1,1,1,1,1,1,1,1,1,1,1,1,";
"    1,1,1,1,1,1,1,1,1,1,1,1,1,1,1,0x1897,";
"    0x189d,1,1,1,1,1,1,1,1,1,1,1,1,1,0x18a3,0x18a9,";
"    0x18af,0x18b5,1,1,0x18bb,0x18c1,0x834,0x838,0x18c7,0x18cd,0x18d3,0x18d9,0x18df,0x18e5,1,1,";
"    0x18eb,0x18f1,0x18f7,0x18fd,0x1903,0x1909,0x83c,0x840,0x190f,0x1915,0x191b,0x1921,0x1927,0x192d,0x1933,0x1939,";
"    0x193f,0x1945,0x194b,0x1951,1,1,0x1957,0x195d,1,1,1,1,1,1,1,1,";
"    1,1,1,1,1,1,1,1,1,0xffb8,0xffcc,0xffcc,0xffcc,0xffcc,0xffb8,0xffcc,";
"    0xffcc,0xffcc,0xffbc,0xffb8,0xffcc,0xffcc,0xffcc,0xffcc,0xffcc,0xffcc,0xffb8,0xffb8,0xffb8,0xffb8,0xffb8,0xffb8,";
"    0xffcc,0xffcc,0xffb8,0xffcc,0xffcc,0xffbc,0xffc8,0xffcc,0xfe14,0xfe16,0xfe18,0xfe1a,0xfe1c,0xfe1e,0xfe20,0xfe22,";
"    0xfe24,0xfe26,0xfe26,0xfe28,0xfe2a,0xfe2c,1,0xfe2e,1,0xfe30,0xfe32,1,0xffcc,0xffb8,1,0xfe24,";
"    1,1,1,1,1,1,1,1,1,1,1,1,1,1,1,1,";
"    1,1,1,1,1,1,1,1,1,1,1,1,1,1,1,1,";
"    1,1,1,1,1,1,1,1,1,1,1,1,1,1,1,1,";
"    1,1,1,1,1,1,1,1,0xffcc,0xffcc,0xffcc,0xffcc,0xffcc,0xffcc,0xffcc,0xffcc,";
"    0xfe3c,0xfe3e,0xfe40,1,1,1,1,1,1,1,0x1962,0x1968,0x196f,0x1975,0x197b,0x844,";
"    1,1,1,1,1,1,1,1,1,1,1,1,1,1,1,1,";
"    1,1,1,1,1,1,1,1,0x850,1,0x854,0xfe36,0xfe38,0xfe3a,0xfe3c,0xfe3e,";
"    0xfe40,0xfe42,0xfe44,0xfdcc,0xfdcc,0xfdb8,0xffb8,0xffcc,0xffcc,0xffcc,0xffcc,0xffcc,0xffb8,0xffcc,0xffcc,0xffb8,";
"    1,1,1,1,1,1,1,1,1,1,1,1,1,1,1,1,";
"    0xfe46,1,1,1,1,1,1,1,1,1,1,1,1,1,1,1,";
"    0x1981,0x858,0x1987,1,1,1,1,1,1,1,1,1,1,1,1,1,";
"    1,1,0x85c,0x198d,1,0x860,0xffcc,0xffcc,0xffcc,0xffcc,0xffcc,0xffcc,0xffcc,1,1,0xffcc,";
"    0xffcc,0xffcc,0xffcc,0xffb8,0xffcc,1,1,0xffcc,0xffcc,1,0xffb8,0xffcc,0xffcc,0xffb8,1,1,";
"    1,1,1,1,1,1,1,1,1,1,1,1,1,1,1,1,";
"    0xfe48,1,1,1,1,1,1,1,1,1,1,1,1,1,1,1,";
"    1,1,1,1,1,1,1,1,1,1,1,1,1,1,1,0xffcc,";
"    0xffb8,0xffcc,0xffcc,0xffb8,0xffcc,0xffcc,0xffb8,0xffb8,0xffb8,0xffcc,0xffb8,0xffb8,0xffcc,0xffb8,0xffcc,0xffcc,";
"    0xffb8,0xffcc,0xffb8,0xffcc,0xffb8,0xffcc,0xffb8,0xffcc,0xffcc,1,1,1,1,1,1,1,";
"    1,1,1,1,1,1,1,1,1,1,1,1,1,1,1,1,";
"    1,1,1,1,1,1,1,1,1,1,1,1,1,1,1,1,";
"    1,1,1,1,1,1,1,1,1,1,1,1,1,1,0xffcc,0xffcc,";
"    0xffcc,0xffcc,0xffcc,0xffcc,0xffcc,0xffb8,0xffcc,1,1,1,1,1,1,1,1,1,";
"    0xffb8,1,1,1,1,1,1,1,1,1,1,1,1,1,1,1,";
"    1,1,1,1,1,1,1,0xffcc,0xffcc,0xffcc,0xffcc,1,0xffcc,0xffcc,0xffcc,0xffcc,";
"    0xffcc,0xffcc,0xffcc,0xffcc,0xffcc,1,0xffcc,0xffcc,0xffcc,1,0xffcc,0xffcc,0xffcc,0xffcc,0xffcc,1,";
"    1,1,1,1,1,1,1,1,1,1,1,1,1,1,1,1,";
"    1,1,1,1,1,1,1,1,0xffb8,0xffb8,0xffb8,1,1,1,1,1,";
"    1,1,1,1,1,1,1,1,1,1,1,1,1,1,1,1,";
"    1,1,1,1,1,1,1,1,1,1,1,1,1,1,1,0xffb8,";
"    0xffcc,0xffcc,0xffcc,0xffcc,0xffcc,0xffcc,0xffcc,0xffcc,0xffcc,0xffcc,0xffcc,0xffcc,0xffcc,0xffcc,1,0xffb8,";
"    0xffcc,0xffcc,0xffb8,0xffcc,0xffcc,0xffb8,0xffcc,0xffcc,0xffcc,0xffb8,0xffb8,0xffb8,0xfe36,0xfe38,0xfe3a,0xffcc,";
"    0xffcc,0xffcc,0xffb8,0xffcc,0xffcc,0xffb8,0xffb8,0xffcc,0xffcc,0xffcc,0xffcc,0xffcc,1,1,1,1,";
"    1,1,1,1,1,1,1,1,1,1,1,1,1,1,1,1,";
"    1,1,1,1,1,1,1,1,1,1,1,1,1,1,1,1,";
"    1,1,1,1,0x864,0x1993,1,1,1,1,1,1,0x868,0x1999,1,0x86c,";
"    0x199f,1,1,1,1,1,1,1,0xfc0e,1,1,1,1,1,1,1,";
"    1,1,1,1,1,1,0xfe12,1,1,1,0xffcc,0xffb8,0xffcc,0xffcc,1,1,";
"    1,0x29ec,0x29f2,0x29f8,0x29fe,0x2a04,0x2a0a,0x2a10,0x2a16,1,1,1,1,1,1,1,";
"    1,1,1,1,1,1,1,1,1,1,1,1,1,1,1,1,";
"    1,1,1,1,1,1,1,1,1,1,1,1,1,1,1,1,";
"    1,1,1,1,1,1,1,1,1,1,1,1,1,1,1,1,";
"    1,1,1,1,1,0xfe0e,1,0xfc00,1,1,1,1,1,1,1,0x870,";
"    1,1,1,0x19a5,0x19ab,0xfe12,1,1,1,1,1,1,1,1,1,0xfc00,";
"    1,1,1,1,0x2a1c,0x2a22,1,0x2a28,1,1,1,1,1,1,1,1,";
"    1,1,1,1,1,1,1,1,1,1,1,1,1,1,1,1,";
"    1,1,1,1,1,1,0xffcc,1,1,1,1,1,1,1,1,1,";
"    1,1,1,1,1,1,1,1,1,1,1,1,1,1,1,1,";
"    1,1,1,1,1,1,1,1,1,1,1,1,1,1,1,1,";
"    1,1,1,1,1,1,1,1,1,1,0x2a2e,1,1,0x2a34,1,1,";
"    1,1,1,0xfe0e,1,1,1,1,1,1,1,1,1,1,1,1,";
"    1,0xfe12,1,1,1,1,1,1,1,1,1,1,1,0x2a3a,0x2a40,0x2a46,";
"    1,1,0x2a4c,1,1,1,1,1,1,1,1,1,1,1,1,1,";
"    1,1,1,1,1,1,1,1,1,1,1,1,1,1,1,1,";
"    1,1,1,1,1,1,1,1,1,1,1,1,1,1,1,1,";
"    1,1,1,1,1,1,1,1,1,1,1,1,1,1,1,0xfe0e,";
"    1,1,1,1,1,1,1,1,1,1,1,1,1,0xfe12,1,1,";
"    1,1,1,1,1,1,1,1,1,1,1,1,1,1,1,1,";
"    1,1,1,1,1,1,1,1,1,1,1,1,1,1,1,1,";
"    1,1,1,1,1,1,1,1,1,1,1,1,1,1,1,1,";
"    0x878,0x19b1,1,1,0x19b7,0x19bd,0xfe12,1,1,1,1,1,1,1,1,0xfc00,";
"    0xfc00,1,1,1,1,0x2a52,0x2a58,1,1,1,1,1,1,1,1,1,";
"    1,1,1,1,1,1,1,1,1,1,1,1,1,1,1,1,";
"    1,1,1,1,1,1,1,1,1,0x884,1,0x19c3,1,1,1,1,";
"    1,1,1,1,1,1,1,1,1,1,1,1,1,1,1,1,";
"    1,1,1,1,1,1,1,1,1,1,1,1,1,1,1,1,";
"    1,1,1,1,1,0xfc00,1,1,1,1,1,1,0x888,0x890,1,1,";
"    0x19c9,0x19cf,0x19d5,0xfe12,1,1,1,1,1,1,1,1,1,0xfc00,1,1,";
"    1,1,1,1,1,1,1,1,1,1,1,1,1,1,1,1,";
"    1,1,1,1,1,1,1,1,1,1,1,1,1,1,1,1,";
"    1,1,1,1,1,1,0x894,1,0x19db,1,1,1,1,0xfe12,1,1,";
"    1,1,1,1,1,0xfea8,0xfcb6,1,1,1,1,1,1,1,1,1,";
"    1,1,1,1,1,1,1,1,1,1,1,1,1,1,1,1,";
"    1,1,1,1,1,1,1,1,1,1,1,1,1,1,1,1,";
"    1,1,1,1,1,1,1,1,1,1,1,1,1,1,1,1,";
"    1,1,1,0xfe0e,1,1,0x898,0x19e1,1,0xfc00,1,1,1,0x89c,0x19e7,0x19ed,";
"    1,0xdca,0x19f5,1,0xfe12,1,1,1,1,1,1,1,0xfc00,0xfc00,1,1,";
"    1,1,1,1,1,1,1,1,1,1,1,1,1,1,1,1,";
"    1,1,1,1,1,1,1,1,1,1,1,1,1,1,1,1,";
"    1,1,1,1,1,1,1,1,1,1,1,1,1,1,1,1,";
"    1,1,1,1,1,1,1,1,1,0xfe12,0xfe12,1,0xfc00,1,1,1,";
"    1,1,1,0x8a8,0x8b0,1,1,0x19fd,0x1a03,0x1a09,0xfe12,1,1,1,1,1,";
"    1,1,1,1,0xfc00,1,1,1,1,1,1,1,1,1,1,1,";
"    1,1,1,1,1,1,1,1,1,1,1,1,1,1,1,1,";
"    1,1,1,1,1,1,1,1,1,1,1,1,1,0xfc12,1,1,";
"    1,1,0xfc00,1,1,1,1,1,1,1,1,1,0x8b4,0x1a0f,1,0xdd4,";
"    0x1a17,0x1a1f,0xfc00,1,1,1,1,1,1,1,1,1,1,1,1,1,";
"    1,1,1,1,1,1,1,1,1,1,1,1,1,1,1,1,";
"    1,1,1,1,1,1,1,1,1,1,1,1,1,1,1,1,";
"    1,1,1,1,1,1,1,1,1,1,1,0xfece,0xfece,0xfe12,1,1,";
"    1,1,1,1,1,1,0xfed6,0xfed6,0xfed6,0xfed6,1,1,1,1,1,1,";
"    1,1,1,1,1,1,1,1,1,1,1,1,1,1,1,1,";
"    1,1,1,1,1,1,1,1,1,1,1,1,1,1,1,1,";
"    1,1,1,1,1,1,1,1,1,1,1,1,1,1,1,1,";
"    1,1,0xfeec,0xfeec,0xfe12,1,1,1,1,1,1,1,1,0xfef4,0xfef4,0xfef4,";
"    0xfef4,1,1,1,1,1,1,1,1,1,1,1,1,1,1,1,";
"    1,1,1,1,1,1,1,1,1,1,1,1,1,1,1,1,";
"    1,1,1,1,1,1,1,1,1,1,1,1,1,1,1,1,";
"    1,1,1,1,1,0xffb8,0xffb8,1,1,1,1,1,1,1,1,1,";
"    1,1,1,1,1,1,1,1,1,1,1,1,1,1,1,1,";
"    1,1,0xffb8,1,0xffb8,1,0xffb0,1,1,1,1,1,1,0x2a5f,1,1,";
"    1,1,1,1,1,1,1,0x2a65,1,1,1,1,0x2a6b,1,1,1,";
"    1,0x2a71,1,1,1,1,0x2a77,1,1,1,1,1,1,1,1,1,";
"    1,1,1,0x2a7d,1,1,1,1,1,1,1,0xff02,0xff04,0x3c50,0xff08,0x3c58,";
"    0x2a82,1,0x2a88,1,0xff04,0xff04,0xff04,0xff04,1,1,0xff04,0x3c60,0xffcc,0xffcc,0xfe12,1,";
"    0xffcc,0xffcc,1,1,1,1,1,1,1,1,1,1,1,0x2a8f,1,1,";
"    1,1,1,1,1,1,1,0x2a95,1,1,1,1,0x2a9b,1,1,1,";
"    1,0x2aa1,1,1,1,1,0x2aa7,1,1,1,1,1,1,1,1,1,";
"    1,1,1,0x2aad,1,1,1,1,1,1,0xffb8,1,1,1,1,1,";
"    1,1,1,1,1,1,1,1,1,1,1,1,1,1,1,1,";
"    1,1,1,1,1,1,1,1,1,1,1,1,1,1,1,1,";
"    1,1,1,1,1,1,1,1,1,1,1,1,1,1,1,1,";
"    1,1,1,1,0x8c0,0x1a25,1,1,1,1,1,1,1,0xfc00,1,1,";
"    1,1,1,1,1,1,0xfe0e,1,0xfe12,0xfe12,1,1,1,1,1,1,";
"    1,1,1,1,1,1,1,0xffb8,1,1,1,1,1,1,1,1,";
"    1,1,1,1,1,1,1,1,1,1,1,1,1,1,1,1,";
"    1,1,1,1,1,1,1,1,1,1,1,1,1,1,1,1,";
"    1,1,1,1,1,1,1,1,1,1,2,2,2,2,2,2,";
"    2,2,2,2,2,2,2,2,2,2,2,2,2,1,1,1,";
"    1,1,1,1,1,1,1,1,1,1,1,1,1,1,1,1,";
"    1,1,1,1,1,1,1,1,1,1,1,1,1,1,1,1,";
"    1,1,1,1,1,1,1,1,1,1,0xfe00,0xfe00,0xfe00,0xfe00,0xfe00,0xfe00,";
"    0xfe00,0xfe00,0xfe00,0xfe00,0xfe00,0xfe00,0xfe00,0xfe00,0xfe00,0xfe00,0xfe00,0xfe00,0xfe00,0xfe00,0xfe00,1,";
"    1,1,1,1,1,1,1,1,1,1,1,1,1,1,1,1,";
"    1,1,1,1,1,1,1,1,1,1,1,1,1,1,1,1,";
"    1,1,1,1,1,1,1,0xfe00,0xfe00,0xfe00,0xfe00,0xfe00,0xfe00,0xfe00,0xfe00,0xfe00,";
"    0xfe00,0xfe00,0xfe00,0xfe00,0xfe00,0xfe00,0xfe00,0xfe00,0xfe00,0xfe00,0xfe00,0xfe00,0xfe00,0xfe00,0xfe00,1,";
"    1,1,1,1,1,1,1,1,1,1,1,1,1,1,1,1,";
"    1,1,1,1,1,1,1,1,1,1,1,1,1,1,1,1,";
"    1,1,1,1,1,1,1,1,1,1,1,1,1,1,1,1,";
"    1,1,1,1,1,1,1,1,1,1,1,1,0xffcc,0xffcc,0xffcc,1,";
"    1,1,1,1,1,1,1,1,1,1,1,1,1,1,1,1,";
"    1,1,1,1,1,1,1,1,1,1,1,1,1,1,1,0xfe12,";
"    1,1,1,1,1,1,1,1,1,1,1,1,1,1,1,1,";
"    1,1,1,1,1,1,1,1,1,1,1,1,1,1,1,0xfe12,";
"    1,1,1,1,1,1,1,1,1,1,1,1,1,1,1,1,";
"    1,1,0xfe12,1,1,1,1,1,1,1,1,1,1,0xffcc,1,1,";
"    1,1,1,1,1,1,1,1,1,1,1,1,1,1,1,1,";
"    1,1,1,1,1,1,1,1,1,1,1,1,1,1,1,1,";
"    1,1,1,1,1,1,1,0xffc8,1,1,1,1,1,1,1,1,";
"    1,1,1,1,1,1,1,1,1,1,1,1,1,1,1,1,";
"    1,1,1,1,1,1,1,1,1,1,1,1,1,1,1,1,";
"    1,1,1,1,1,1,1,1,1,1,1,1,1,1,1,1,";
"    1,0xffbc,0xffcc,0xffb8,1,1,1,1,1,1,1,1,1,1,1,1,";
"    1,1,1,1,1,1,1,1,1,1,1,0xffcc,0xffb8,1,1,1,";
"    1,1,1,1,1,1,1,1,1,1,1,1,1,1,1,1,";
"    1,1,1,1,1,1,1,1,1,1,1,1,1,1,1,1,";
"    1,1,1,1,0xfe12,1,1,1,1,1,1,1,1,1,1,1,";
"    1,1,1,1,1,1,1,1,1,0xffcc,0xffcc,0xffcc,0xffcc,0xffcc,0xffcc,0xffcc,";
"    0xffcc,1,1,0xffb8,1,1,1,1,1,1,1,1,1,1,1,1,";
"    1,1,1,1,1,1,1,1,1,1,1,1,1,1,1,1,";
"    1,1,1,1,1,1,1,1,1,1,1,1,1,1,1,1,";
"    1,1,1,1,0xffcc,0xffcc,0xffcc,0xffcc,0xffcc,0xffb8,0xffb8,0xffb8,0xffb8,0xffb8,0xffb8,0xffcc,";
"    0xffcc,0xffb8,1,0xffb8,1,1,1,1,1,1,1,1,1,1,1,1,";
"    1,1,1,1,1,1,1,1,1,1,1,1,1,1,1,1,";
"    1,1,1,1,1,1,1,1,1,1,1,1,1,1,1,1,";
"    1,1,1,1,1,1,1,1,1,1,1,1,1,1,1,1,";
"    1,1,1,0x8c4,0x1a2b,0x8c8,0x1a31,0x8cc,0x1a37,0x8d0,0x1a3d,0x8d4,0x1a43,1,1,0x8d8,";
"    0x1a49,1,1,1,1,1,1,1,1,1,1,1,1,1,1,1,";
"    1,1,1,1,1,1,1,1,1,1,1,1,1,1,1,1,";
"    1,1,0xfe0e,0xfc00,1,1,1,1,0x8dc,0x1a4f,0x8e0,0x1a55,0x8e4,0x8e8,0x1a5b,0x1a61,";
"    0x8ec,0x1a67,0xfe12,1,1,1,1,1,1,1,1,1,1,1,1,1,";
"    1,1,1,1,1,1,1,1,1,1,1,1,1,1,1,1,";
"    1,1,1,1,1,1,1,1,1,0xffcc,0xffb8,0xffcc,0xffcc,0xffcc,0xffcc,0xffcc,";
"    0xffcc,0xffcc,1,1,1,1,1,1,1,1,1,1,1,1,1,1,";
"    1,1,1,1,1,1,1,1,1,1,1,1,1,1,1,1,";
"    1,1,1,1,1,1,1,1,1,1,1,1,0xfe12,0xfe12,1,1,";
"    1,1,1,1,1,1,1,1,1,1,1,1,1,1,1,1,";
"    1,1,1,1,1,1,1,1,1,1,1,1,1,1,1,1,";
"    1,1,1,1,0xfe0e,1,1,1,1,1,1,1,1,1,1,1,";
"    0xfe12,0xfe12,1,1,1,1,1,1,1,1,1,1,1,1,1,1,";
"    1,1,0xffcc,0xffcc,0xffcc,1,0xfe02,0xffb8,0xffb8,0xffb8,0xffb8,0xffb8,0xffcc,0xffcc,0xffb8,0xffb8,";
"    0xffb8,0xffb8,0xffcc,1,0xfe02,0xfe02,0xfe02,0xfe02,0xfe02,0xfe02,0xfe02,1,1,1,1,0xffb8,";
"    1,1,1,1,1,1,0xffcc,1,1,1,0xffcc,0xffcc,1,1,1,1,";
"    1,1,0xffcc,0xffcc,0xffb8,0xffcc,0xffcc,0xffcc,0xffcc,0xffcc,0xffcc,0xffcc,0xffb8,0xffcc,0xffcc,0xffd4,";
"    0xffac,0xffb8,0xff94,0xffcc,0xffcc,0xffcc,0xffcc,0xffcc,0xffcc,0xffcc,0xffcc,0xffcc,0xffcc,0xffcc,0xffcc,0xffcc,";
"    0xffcc,0xffcc,0xffcc,0xffcc,0xffcc,0xffcc,0xffcc,0xffcc,0xffcc,0xffcc,0xffcc,0xffcc,0xffcc,0xffcc,0xffcc,0xffcc,";
"    0xffcc,0xffcc,0xffcc,0xffcc,0xffcc,0xffcc,0xffcc,0xffcc,0xffd0,0xffc8,0xffc8,0xffb8,1,0xffcc,0xffd2,0xffb8,";
"    0xffcc,0xffb8,0x1a6c,0x1a72,0x1a78,0x1a7e,0x1a85,0x1a8b,0x1a91,0x1a97,0x1a9f,0x1aa9,0x1ab0,0x1ab6,0x1abc,0x1ac2,";
"    0x1ac8,0x1ace,0x1ad5,0x1adb,0x1ae0,0x1ae6,0x1aee,0x1af8,0x1b02,0x1b0c,0x1b14,0x1b1a,0x1b20,0x1b26,0x1b2f,0x1b39,";
"    0x1b41,0x1b47,0x1b4c,0x1b52,0x1b58,0x1b5e,0x1b64,0x1b6a,0x1b70,0x1b76,0x1b7d,0x1b83,0x1b88,0x1b8e,0x1b94,0x1b9a,";
"    0x1ba2,0x1bac,0x1bb4,0x1bba,0x1bc0,0x1bc6,0x1bcc,0x1bd2,0xdde,0xde8,0x1bda,0x1be4,0x1bec,0x1bf2,0x1bf8,0x1bfe,";
"    0x1c04,0x1c0a,0x1c10,0x1c16,0x1c1d,0x1c23,0x1c28,0x1c2e,0x1c34,0x1c3a,0x1c40,0x1c46,0x1c4c,0x1c52,0x1c5a,0x1c64,";
"    0x1c6e,0x1c78,0x1c82,0x1c8c,0x1c96,0x1ca0,0x1ca9,0x1caf,0x1cb5,0x1cbb,0x1cc0,0x1cc6,0xdf2,0xdfc,0x1cce,0x1cd8,";
"    0x1ce0,0x1ce6,0x1cec,0x1cf2,0xe06,0xe10,0x1cfa,0x1d04,0x1d0e,0x1d18,0x1d22,0x1d2c,0x1d34,0x1d3a,0x1d40,0x1d46,";
"    0x1d4c,0x1d52,0x1d58,0x1d5e,0x1d64,0x1d6a,0x1d70,0x1d76,0x1d7c,0x1d82,0x1d8a,0x1d94,0x1d9e,0x1da8,0x1db0,0x1db6,";
"    0x1dbd,0x1dc3,0x1dc8,0x1dce,0x1dd4,0x1dda,0x1de0,0x1de6,0x1dec,0x1df2,0x1df9,0x1dff,0x1e05,0x1e0b,0x1e11,0x1e17,";
"    0x1e1c,0x1e22,0x1e28,0x1e2e,0x1e35,0x1e3b,0x1e41,0x1e47,0x1e4c,0x1e52,0x1e58,0x1e5e,1,0x1e65,1,1,";
"    1,1,0xe1a,0xe28,0x1e6a,0x1e70,0x1e78,0x1e82,0x1e8c,0x1e96,0x1ea0,0x1eaa,0x1eb4,0x1ebe,0x1ec8,0x1ed2,";
"    0x1edc,0x1ee6,0x1ef0,0x1efa,0x1f04,0x1f0e,0x1f18,0x1f22,0x1f2c,0x1f36,0xe36,0xe40,0x1f3e,0x1f44,0x1f4a,0x1f50,";
"    0x1f58,0x1f62,0x1f6c,0x1f76,0x1f80,0x1f8a,0x1f94,0x1f9e,0x1fa8,0x1fb2,0x1fba,0x1fc0,0x1fc6,0x1fcc,0xe4a,0xe54,";
"    0x1fd2,0x1fd8,0x1fe0,0x1fea,0x1ff4,0x1ffe,0x2008,0x2012,0x201c,0x2026,0x2030,0x203a,0x2044,0x204e,0x2058,0x2062,";
"    0x206c,0x2076,0x2080,0x208a,0x2094,0x209e,0x20a6,0x20ac,0x20b2,0x20b8,0x20c0,0x20ca,0x20d4,0x20de,0x20e8,0x20f2,";
"    0x20fc,0x2106,0x2110,0x211a,0x2122,0x2128,0x212f,0x2135,0x213a,0x2140,0x2146,0x214c,1,1,1,1,";
"    1,1,0xe5e,0xe74,0xe8c,0xe9a,0xea8,0xeb6,0xec4,0xed2,0xede,0xef4,0xf0c,0xf1a,0xf28,0xf36,";
"    0xf44,0xf52,0xf5e,0xf6c,0x2155,0x215f,0x2169,0x2173,1,1,0xf7a,0xf88,0x217d,0x2187,0x2191,0x219b,";
"    1,1,0xf96,0xfac,0xfc4,0xfd2,0xfe0,0xfee,0xffc,0x100a,0x1016,0x102c,0x1044,0x1052,0x1060,0x106e,";
"    0x107c,0x108a,0x1096,0x10a8,0x21a5,0x21af,0x21b9,0x21c3,0x21cd,0x21d7,0x10ba,0x10cc,0x21e1,0x21eb,0x21f5,0x21ff,";
"    0x2209,0x2213,0x10de,0x10ec,0x221d,0x2227,0x2231,0x223b,1,1,0x10fa,0x1108,0x2245,0x224f,0x2259,0x2263,";
"    1,1,0x1116,0x1128,0x226d,0x2277,0x2281,0x228b,0x2295,0x229f,1,0x113a,1,0x22a9,1,0x22b3,";
"    1,0x22bd,0x114c,0x1162,0x117a,0x1188,0x1196,0x11a4,0x11b2,0x11c0,0x11cc,0x11e2,0x11fa,0x1208,0x1216,0x1224,";
"    0x1232,0x1240,0x124c,0x3b9e,0x22c5,0x3ba6,0x1256,0x3bae,0x22cb,0x3bb6,0x22d1,0x3bbe,0x22d7,0x3bc6,0x1260,0x3bce,";
"    1,1,0x22de,0x22e8,0x22f7,0x2307,0x2317,0x2327,0x2337,0x2347,0x2352,0x235c,0x236b,0x237b,0x238b,0x239b,";
"    0x23ab,0x23bb,0x23c6,0x23d0,0x23df,0x23ef,0x23ff,0x240f,0x241f,0x242f,0x243a,0x2444,0x2453,0x2463,0x2473,0x2483,";
"    0x2493,0x24a3,0x24ae,0x24b8,0x24c7,0x24d7,0x24e7,0x24f7,0x2507,0x2517,0x2522,0x252c,0x253b,0x254b,0x255b,0x256b,";
"    0x257b,0x258b,0x2595,0x259b,0x25a3,0x25aa,0x25b3,1,0x126a,0x25bd,0x25c5,0x25cb,0x25d1,0x3bd6,0x25d6,1,";
"    0x2ab2,0x8f0,1,0x25dd,0x25e5,0x25ec,0x25f5,1,0x1274,0x25ff,0x2607,0x3bde,0x260d,0x3be6,0x2612,0x2619,";
"    0x261f,0x2625,0x262b,0x2631,0x2639,0x3bf0,1,1,0x2641,0x2649,0x2651,0x2657,0x265d,0x3bfa,1,0x2663,";
"    0x2669,0x266f,0x2675,0x267b,0x2683,0x3c04,0x268b,0x2691,0x2697,0x269f,0x26a7,0x26ad,0x26b3,0x3c0e,0x26b9,0x26bf,";
"    0x3c16,0x2ab7,1,1,0x26c7,0x26ce,0x26d7,1,0x127e,0x26e1,0x26e9,0x3c1e,0x26ef,0x3c26,0x26f4,0x2abb,";
"    0x8fc,1,0xfa09,0xfa09,1,1,1,1,1,1,1,1,1,1,1,1,";
"    1,1,1,1,1,1,1,1,1,1,1,1,1,1,1,1,";
"    1,1,1,1,1,1,1,1,1,1,1,1,1,1,1,1,";
"    1,1,1,1,1,1,1,1,1,1,1,1,1,1,1,1,";
"    1,1,0xffcc,0xffcc,0xfe02,0xfe02,0xffcc,0xffcc,0xffcc,0xffcc,0xfe02,0xfe02,0xfe02,0xffcc,0xffcc,1,";
"    1,1,1,0xffcc,1,1,1,0xfe02,0xfe02,0xffcc,0xffb8,0xffcc,0xfe02,0xfe02,0xffb8,0xffb8,";
"    0xffb8,0xffb8,0xffcc,1,1,1,1,1,1,1,1,1,1,1,1,1,";
"    1,1,1,1,1,1,1,1,1,1,1,1,1,1,1,1,";
"    1,1,1,1,1,1,1,1,1,0x2abe,1,1,1,0x2ac2,0x3c2e,1,";
"    1,1,1,1,1,1,1,1,1,1,1,1,1,1,1,1,";
"    1,1,1,0x908,1,0x90c,1,0x910,1,1,1,1,1,0x26fb,0x2701,1,";
"    1,1,1,1,1,1,1,1,1,1,1,1,1,1,1,1,";
"    1,0x2707,1,1,1,1,1,1,1,1,1,1,1,1,1,1,";
"    1,1,1,0x270d,0x2713,0x2719,0x914,1,0x918,1,0x91c,1,1,1,1,1,";
"    1,1,1,1,1,1,1,1,1,1,1,1,1,1,1,1,";
"    1,1,1,1,1,1,1,1,1,1,1,1,1,1,1,1,";
"    1,1,1,1,1,1,0x920,0x271f,1,1,1,0x924,0x2725,1,0x928,0x272b,";
"    1,1,1,1,1,1,1,1,1,1,1,1,1,1,1,1,";
"    1,1,1,1,1,1,0x92c,0x2731,0x930,0x2737,1,1,1,1,1,1,";
"    1,1,1,1,1,1,1,1,1,1,1,1,1,1,1,0x934,";
"    1,1,1,0x273d,1,0x938,0x2743,0x93c,1,0x2749,0x940,0x274f,1,1,1,0x944,";
"    1,1,1,1,1,1,1,1,1,1,1,1,1,1,1,1,";
"    1,1,0x2755,0x948,0x275b,1,0x94c,0x950,1,1,1,1,1,1,1,0x2761,";
"    0x2767,0x276d,0x2773,0x2779,0x954,0x958,0x277f,0x2785,0x95c,0x960,0x278b,0x2791,0x964,0x968,0x96c,0x970,";
"    1,1,0x2797,0x279d,0x974,0x978,0x27a3,0x27a9,0x97c,0x980,0x27af,0x27b5,1,1,1,1,";
"    1,1,1,0x984,0x988,1,1,1,1,1,1,1,1,1,1,1,";
"    1,1,1,1,0x98c,1,1,1,1,1,0x990,0x994,1,0x998,0x27bb,0x27c1,";
"    0x27c7,0x27cd,1,1,0x99c,0x9a0,0x9a4,0x9a8,1,1,1,1,1,1,1,1,";
"    1,1,1,1,1,1,1,1,1,1,1,1,1,1,1,1,";
"    1,1,1,1,1,1,1,1,0x27d3,0x27d9,0x27df,0x27e5,1,1,1,1,";
"    1,1,0x27eb,0x27f1,0x27f7,0x27fd,1,1,1,1,1,1,1,1,1,1,";
"    1,1,1,1,1,1,1,1,1,1,1,1,1,1,1,1,";
"    1,1,1,1,1,1,1,1,1,1,1,1,1,1,1,0x2ac7,";
"    0x2acb,1,1,1,1,1,1,1,1,1,1,1,1,1,1,1,";
"    1,1,1,1,1,1,1,1,1,1,1,1,1,0x2acf,1,1,";
"    1,1,1,1,1,1,1,1,1,1,1,1,1,1,1,1,";
"    1,1,1,1,1,1,1,1,1,1,1,1,1,1,1,1,";
"    1,1,1,1,1,1,1,1,1,1,1,1,1,1,1,1,";
"    1,1,1,1,1,1,1,1,1,1,1,1,1,0xfe12,1,1,";
"    1,1,1,1,1,1,1,1,1,1,1,1,1,1,1,1,";
"    1,1,1,1,1,1,1,1,1,1,1,1,1,1,0xffcc,0xffcc,";
"    0xffcc,0xffcc,0xffcc,0xffcc,0xffcc,0xffcc,0xffcc,0xffcc,0xffcc,0xffcc,0xffcc,0xffcc,0xffcc,0xffcc,0xffcc,0xffcc,";
"    0xffcc,0xffcc,0xffcc,0xffcc,0xffcc,0xffcc,0xffcc,0xffcc,0xffcc,0xffcc,0xffcc,0xffcc,0xffcc,0xffcc,1,1,";
"    1,1,1,1,1,1,1,1,1,1,1,1,1,1,1,1,";
"    1,1,1,1,1,1,1,1,1,1,1,1,1,1,1,1,";
"    1,1,1,1,1,1,1,1,0xffb4,0xffc8,0xffd0,0xffbc,0xffc0,0xffc0,1,1,";
"    1,1,1,1,1,1,1,1,1,1,1,1,1,1,0x9ac,1,";
"    1,1,1,0x9b0,0x2803,0x9b4,0x2809,0x9b8,0x280f,0x9bc,0x2815,0x9c0,0x281b,0x9c4,0x2821,0x9c8,";
"    0x2827,0x9cc,0x282d,0x9d0,0x2833,0x9d4,0x2839,0x9d8,0x283f,0x9dc,0x2845,1,0x9e0,0x284b,0x9e4,0x2851,";
"    0x9e8,0x2857,1,1,1,1,1,0x9ec,0x285d,0x2863,0x9f4,0x2869,0x286f,0x9fc,0x2875,0x287b,";
"    0xa04,0x2881,0x2887,0xa0c,0x288d,0x2893,1,1,1,1,1,1,1,1,1,1,";
"    1,1,1,1,1,1,1,1,1,1,0x2899,1,1,1,1,0xfc10,";
"    0xfc10,1,1,0xa14,0x289f,1,1,1,1,1,1,1,0xa18,1,1,1,";
"    1,0xa1c,0x28a5,0xa20,0x28ab,0xa24,0x28b1,0xa28,0x28b7,0xa2c,0x28bd,0xa30,0x28c3,0xa34,0x28c9,0xa38,";
"    0x28cf,0xa3c,0x28d5,0xa40,0x28db,0xa44,0x28e1,0xa48,0x28e7,1,0xa4c,0x28ed,0xa50,0x28f3,0xa54,0x28f9,";
"    1,1,1,1,1,0xa58,0x28ff,0x2905,0xa60,0x290b,0x2911,0xa68,0x2917,0x291d,0xa70,0x2923,";
"    0x2929,0xa78,0x292f,0x2935,1,1,1,1,1,1,1,1,1,1,1,1,";
"    1,1,1,1,1,0xa80,0xa84,0xa88,0xa8c,1,0x293b,1,1,0x2941,0x2947,0x294d,";
"    0x2953,1,1,0xa90,0x2959,1,1,1,1,1,1,1,1,1,1,1,";
"    1,1,1,1,1,1,1,1,1,1,1,1,1,1,1,1,";
"    1,1,1,1,1,1,1,1,1,1,1,1,1,1,1,1,";
"    1,1,1,1,0xffcc,1,1,1,1,0xffcc,0xffcc,0xffcc,0xffcc,0xffcc,0xffcc,0xffcc,";
"    0xffcc,0xffcc,0xffcc,1,1,1,1,1,1,1,1,1,1,1,1,1,";
"    1,1,1,1,1,1,1,1,1,1,1,1,1,1,1,1,";
"    1,0xffcc,0xffcc,1,1,1,1,1,1,1,1,1,1,1,1,1,";
"    1,1,1,1,1,1,1,1,1,1,1,1,1,1,1,1,";
"    1,1,1,1,1,1,1,1,1,1,1,1,1,1,1,1,";
"    1,1,1,0xffcc,0xffcc,1,1,1,1,1,1,1,1,1,1,1,";
"    1,1,1,0xfe12,1,1,1,1,1,1,1,1,1,1,1,1,";
"    1,1,1,1,1,1,1,1,1,1,1,1,1,1,1,1,";
"    1,1,1,1,1,1,1,1,1,0xfe12,1,1,1,1,1,1,";
"    1,1,1,1,1,1,1,1,1,1,1,1,1,1,1,1,";
"    1,1,1,1,1,0xffcc,0xffcc,0xffcc,0xffcc,0xffcc,0xffcc,0xffcc,0xffcc,0xffcc,0xffcc,0xffcc,";
"    0xffcc,0xffcc,0xffcc,0xffcc,0xffcc,0xffcc,0xffcc,1,1,1,1,1,1,1,1,1,";
"    1,1,1,1,1,1,1,1,1,1,1,1,1,1,1,1,";
"    1,1,1,1,1,1,1,1,1,1,1,1,1,1,1,1,";
"    1,1,0xffb8,0xffb8,0xffb8,1,1,1,1,1,1,1,1,1,1,1,";
"    1,1,1,1,1,1,1,1,0xfe12,1,1,1,1,1,1,1,";
"    1,1,1,1,1,1,1,1,1,1,1,1,1,1,1,1,";
"    1,1,1,1,1,1,1,1,1,1,1,1,1,1,1,1,";
"    1,1,1,1,1,1,1,1,1,1,1,1,1,1,1,1,";
"    1,1,1,1,1,1,1,1,0xffcc,1,0xffcc,0xffcc,0xffb8,1,1,0xffcc,";
"    0xffcc,1,1,1,1,1,0xffcc,0xffcc,1,0xffcc,1,1,1,1,1,1,";
"    1,1,1,1,1,1,1,1,1,1,1,1,1,1,1,1,";
"    1,1,1,1,1,1,1,1,1,1,1,1,1,1,1,1,";
"    1,1,1,1,1,1,1,1,1,1,1,1,1,1,0xfe12,1,";
"    1,1,1,1,1,1,1,1,0xae2,0x1289,0x1289,0x1289,0x1289,0x1289,0x1289,0x1289,";
"    0x1289,0x1289,0x1289,0x1289,0x1289,0x1289,0x1289,0x1289,0x1289,0x1289,0x1289,0x1289,0x1289,0x1289,0x1289,0x1289,";
"    0x1289,0x1289,0x1289,0x1289,0xae2,0x1289,0x1289,0x1289,0x1289,0x1289,0x1289,0x1289,0x1289,0x1289,0x1289,0x1289,";
"    0x1289,0x1289,0x1289,0x1289,0x1289,0x1289,0x1289,0x1289,0x1289,0x1289,0x1289,0x1289,0x1289,0x1289,0x1289,0x1289,";
"    0xae2,0x1289,0x1289,0x1289,0x1289,0x1289,0x1289,0x1289,0x1289,0x1289,0x1289,0x1289,0x1289,0x1289,0x1289,0x1289,";
"    0x1289,0x1289,0x1289,0x1289,0x1289,0x1289,0x1289,0x1289,0x1289,0x1289,0x1289,0x1289,0xae2,0x1289,0x1289,0x1289,";
"    0x1289,0x1289,0x1289,0x1289,0x1289,0x1289,0x1289,0x1289,0x1289,0x1289,0x1289,0x1289,0x1289,0x1289,0x1289,0x1289,";
"    0x1289,0x1289,0x1289,0x1289,0x1289,0x1289,0x1289,0x1289,1,1,1,1,1,1,1,1,";
"    1,1,1,1,1,1,1,1,1,1,1,1,1,1,1,1,";
"    1,1,1,1,0x3c66,1,0x3c66,0x3c66,0x3c66,0x3c66,0x3c66,0x3c66,1,1,1,1,";
"    1,1,1,1,1,1,1,1,1,1,1,1,1,1,0x3c66,0x3c66,";
"    1,1,1,1,1,1,1,1,1,1,1,1,1,1,1,1,";
"    1,1,1,0x3c66,1,1,1,1,0x3c66,1,1,1,0x3c66,1,0x3c66,1,";
"    1,1,1,1,1,1,1,1,1,1,1,1,1,1,1,1,";
"    1,1,1,1,1,1,1,1,1,1,1,1,1,1,1,1,";
"    1,1,1,1,1,1,1,1,1,1,1,1,1,1,1,1,";
"    1,1,1,1,1,1,1,1,1,1,1,1,1,0x3b97,1,0x2ad5,";
"    0x2ad9,0x2add,0x2ae1,0x2ae5,0x2ae9,0x2aed,0x2af1,0x2af1,0x2af5,0x2af9,0x2afd,0x2b01,0x2b05,0x2b09,0x2b0d,0x2b11,";
"    0x2b15,0x2b19,0x2b1d,0x2b21,0x2b25,0x2b29,0x2b2d,0x2b31,0x2b35,0x2b39,0x2b3d,0x2b41,0x2b45,0x2b49,0x2b4d,0x2b51,";
"    0x2b55,0x2b59,0x2b5d,0x2b61,0x2b65,0x2b69,0x2b6d,0x2b71,0x2b75,0x2b79,0x2b7d,0x2b81,0x2b85,0x2b89,0x2b8d,0x2b91,";
"    0x2b95,0x2b99,0x2b9d,0x2ba1,0x2ba5,0x2ba9,0x2bad,0x2bb1,0x2bb5,0x2bb9,0x2bbd,0x2bc1,0x2bc5,0x2bc9,0x2bcd,0x2bd1,";
"    0x2bd5,0x2bd9,0x2bdd,0x2be1,0x2be5,0x2be9,0x2bed,0x2bf1,0x2bf5,0x2bf9,0x2bfd,0x2c01,0x2c05,0x2c09,0x2c0d,0x2c11,";
"    0x2c15,0x2c19,0x2c1d,0x2c21,0x2c25,0x2c29,0x2c2d,0x2c31,0x2c35,0x2c39,0x2c3d,0x2b21,0x2c41,0x2c45,0x2c49,0x2c4d,";
"    0x2c51,0x2c55,0x2c59,0x2c5d,0x2c61,0x2c65,0x2c69,0x2c6d,0x2c71,0x2c75,0x2c79,0x2c7d,0x2c81,0x2c85,0x2c89,0x2c8d,";
"    0x2c91,0x2c95,0x2c99,0x2c9d,0x2ca1,0x2ca5,0x2ca9,0x2cad,0x2cb1,0x2cb5,0x2cb9,0x2cbd,0x2cc1,0x2cc5,0x2cc9,0x2ccd,";
"    0x2cd1,0x2cd5,0x2cd9,0x2cdd,0x2ce1,0x2ce5,0x2ce9,0x2ced,0x2cf1,0x2cf5,0x2cf9,0x2cfd,0x2d01,0x2d05,0x2d09,0x2d0d,";
"    0x2d11,0x2d15,0x2d19,0x2d1d,0x2d21,0x2d25,0x2d29,0x2d2d,0x2d31,0x2d35,0x2d39,0x2d3d,0x2d41,0x2d45,0x2d49,0x2d4d,";
"    0x2c89,0x2d51,0x2d55,0x2d59,0x2d5d,0x2d61,0x2d65,0x2d69,0x2d6d,0x2c49,0x2d71,0x2d75,0x2d79,0x2d7d,0x2d81,0x2d85,";
"    0x2d89,0x2d8d,0x2d91,0x2d95,0x2d99,0x2d9d,0x2da1,0x2da5,0x2da9,0x2dad,0x2db1,0x2db5,0x2db9,0x2dbd,0x2b21,0x2dc1,";
"    0x2dc5,0x2dc9,0x2dcd,0x2dd1,0x2dd5,0x2dd9,0x2ddd,0x2de1,0x2de5,0x2de9,0x2ded,0x2df1,0x2df5,0x2df9,0x2dfd,0x2e01,";
"    0x2e05,0x2e09,0x2e0d,0x2e11,0x2e15,0x2e19,0x2e1d,0x2e21,0x2e25,0x2e29,0x2c51,0x2e2d,0x2e31,0x2e35,0x2e39,0x2e3d,";
"    0x2e41,0x2e45,0x2e49,0x2e4d,0x2e51,0x2e55,0x2e59,0x2e5d,0x2e61,0x2e65,0x2e69,0x2e6d,0x2e71,0x2e75,0x2e79,0x2e7d,";
"    0x2e81,0x2e85,0x2e89,0x2e8d,0x2e91,0x2e95,0x2e99,0x2e9d,0x2ea1,0x2ea5,0x2ea9,0x2ead,0x2eb1,0x2eb5,0x2eb9,0x2ebd,";
"    0x2ec1,0x2ec5,0x2ec9,0x2ecd,0x2ed1,0x2ed5,0x2ed9,0x2edd,0x2ee1,0x2ee5,0x2ee9,0x2eed,0x2ef1,1,1,0x2ef5,";
"    1,0x2ef9,1,1,0x2efd,0x2f01,0x2f05,0x2f09,0x2f0d,0x2f11,0x2f15,0x2f19,0x2f1d,0x2f21,1,0x2f25,";
"    1,0x2f29,1,1,0x2f2d,0x2f31,1,1,1,0x2f35,0x2f39,0x2f3d,0x2f41,0x2f45,0x2f49,0x2f4d,";
"    0x2f51,0x2f55,0x2f59,0x2f5d,0x2f61,0x2f65,0x2f69,0x2f6d,0x2f71,0x2f75,0x2f79,0x2f7d,0x2f81,0x2f85,0x2f89,0x2f8d,";
"    0x2f91,0x2f95,0x2f99,0x2f9d,0x2fa1,0x2fa5,0x2fa9,0x2fad,0x2fb1,0x2fb5,0x2fb9,0x2fbd,0x2fc1,0x2fc5,0x2fc9,0x2fcd,";
"    0x2fd1,0x2fd5,0x2fd9,0x2fdd,0x2fe1,0x2fe5,0x2d25,0x2fe9,0x2fed,0x2ff1,0x2ff5,0x2ff9,0x2ffd,0x2ffd,0x3001,0x3005,";
"    0x3009,0x300d,0x3011,0x3015,0x3019,0x301d,0x2f2d,0x3021,0x3025,0x3029,0x302d,0x3031,0x3037,1,1,0x303b,";
"    0x303f,0x3043,0x3047,0x304b,0x304f,0x3053,0x3057,0x2f65,0x305b,0x305f,0x3063,0x2ef5,0x3067,0x306b,0x306f,0x3073,";
"    0x3077,0x307b,0x307f,0x3083,0x3087,0x308b,0x308f,0x3093,0x2f89,0x3097,0x2f8d,0x309b,0x309f,0x30a3,0x30a7,0x30ab,";
"    0x2ef9,0x2b75,0x30af,0x30b3,0x30b7,0x2c8d,0x2de9,0x30bb,0x30bf,0x2fa9,0x30c3,0x2fad,0x30c7,0x30cb,0x30cf,0x2f01,";
"    0x30d3,0x30d7,0x30db,0x30df,0x30e3,0x2f05,0x30e7,0x30eb,0x30ef,0x30f3,0x30f7,0x30fb,0x2fe5,0x30ff,0x3103,0x2d25,";
"    0x3107,0x2ff5,0x310b,0x310f,0x3113,0x3117,0x311b,0x3009,0x311f,0x2f29,0x3123,0x300d,0x2c41,0x3127,0x3011,0x312b,";
"    0x3019,0x312f,0x3133,0x3137,0x313b,0x313f,0x3021,0x2f19,0x3143,0x3025,0x3147,0x3029,0x314b,0x2af1,0x314f,0x3155,";
"    0x315b,0x3161,0x3165,0x3169,0x316d,0x3173,0x3179,0x317f,0x3183,1,1,1,1,1,1,1,";
"    1,1,1,1,1,1,1,1,1,1,1,1,1,1,1,1,";
"    1,1,1,1,1,1,1,1,1,1,1,1,1,1,1,0x3186,";
"    0xfe34,0x318c,1,1,1,1,1,1,1,1,1,1,0x3192,0x3198,0x31a0,0x31aa,";
"    0x31b2,0x31b8,0x31be,0x31c4,0x31ca,0x31d0,0x31d6,0x31dc,0x31e2,1,0x31e8,0x31ee,0x31f4,0x31fa,0x3200,1,";
"    0x3206,1,0x320c,0x3212,1,0x3218,0x321e,1,0x3224,0x322a,0x3230,0x3236,0x323c,0x3242,0x3248,0x324e,";
"    0x3254,1,1,1,1,1,1,1,1,1,1,1,1,1,1,1,";
"    1,1,1,1,1,1,1,1,1,1,1,1,1,1,1,1,";
"    1,1,1,1,1,1,1,1,1,1,1,1,1,1,1,1,";
"    1,1,0xffcc,0xffcc,0xffcc,0xffcc,0xffcc,0xffcc,0xffcc,0xffb8,0xffb8,0xffb8,0xffb8,0xffb8,0xffb8,0xffb8,";
"    0xffcc,0xffcc,1,1,1,1,1,1,1,1,1,1,1,1,1,1,";
"    1,1,0xffb8,1,0xffcc,1,1,1,1,1,1,1,1,0xffcc,0xfe02,0xffb8,";
"    1,1,1,1,0xfe12,1,1,1,1,0xffcc,0xffcc,0xffcc,0xffcc,1,1,1,";
"    1,1,1,1,1,0xffb8,0xffb8,0xffcc,0xffcc,0xffcc,0xffb8,0xffcc,0xffb8,0xffb8,0xffb8,1,";
"    1,1,1,1,1,1,1,1,0xa94,0x295f,0xa9a,0x2969,1,1,1,1,";
"    1,0xaa0,1,1,1,1,1,0x2973,1,1,1,1,1,1,1,1,";
"    1,0xfe12,0xfc0e,1,1,1,1,1,1,1,0xfc00,1,1,1,1,1,";
"    1,0x297d,0x2987,1,0xaa6,0xaac,0xfe12,0xfe12,1,1,1,1,1,1,1,1,";
"    1,1,1,0xfe12,1,1,1,1,1,1,1,1,1,0xfe0e,1,1,";
"    1,1,1,0xfe12,0xfe0e,1,1,1,1,1,1,1,1,1,0xfe0e,0xfe12,";
"    1,1,1,1,1,1,1,1,1,1,1,0xfe0e,0xfe0e,1,0xfc00,1,";
"    1,1,1,1,1,1,0xab2,1,1,1,0x2991,0x299b,0xfe12,1,1,1,";
"    1,1,1,0xffcc,0xffcc,0xffcc,0xffcc,0xffcc,0xffcc,0xffcc,1,1,1,0xfe12,1,1,";
"    1,0xfe0e,1,1,1,1,1,1,1,1,1,0xfc00,1,1,1,1,";
"    1,1,1,1,0xabe,0xfc00,0x29a5,0x29af,0xfc00,0x29b9,1,1,0xfe12,0xfe0e,1,1,";
"    1,1,1,1,1,1,1,1,1,1,0xad0,0xad6,0x29c3,0x29cd,1,1,";
"    1,0xfe12,0xfe0e,1,1,1,1,1,1,1,1,1,1,1,1,1,";
"    1,1,0xfe12,0xfe0e,1,1,1,1,1,1,1,1,0xfc00,1,1,1,";
"    1,0xadc,1,1,0x29d7,1,1,1,1,0xfe12,0xfe12,1,0xfe02,0xfe02,0xfe02,0xfe02,";
"    0xfe02,1,1,1,1,1,1,1,1,1,1,1,0xfe0c,0xfe0c,1,1,";
"    1,1,1,1,1,1,1,1,1,1,1,1,0xfe02,1,1,1,";
"    1,1,1,1,1,1,1,1,1,1,1,0x325a,0x3264,0x3278,0x3290,0x32a8,";
"    0x32c0,0x32d8,0xffb0,0xffb0,0xfe02,0xfe02,0xfe02,1,1,1,0xffc4,0xffb0,0xffb0,0xffb0,1,1,";
"    1,1,1,1,1,1,0xffb8,0xffb8,0xffb8,0xffb8,0xffb8,1,1,0xffcc,0xffcc,0xffcc,";
"    0xffcc,0xffcc,0xffb8,0xffb8,1,1,1,1,1,1,1,1,1,1,0xffcc,0xffcc,";
"    0xffcc,0xffcc,1,1,1,1,1,1,1,1,1,1,1,0x32e6,0x32f0,0x3304,";
"    0x331c,0x3334,0x334c,1,1,1,1,1,1,1,1,1,1,1,1,1,";
"    1,1,0xffcc,0xffcc,0xffcc,0xffcc,0xffcc,0xffcc,0xffcc,1,0xffcc,0xffcc,0xffcc,0xffcc,0xffcc,0xffcc,";
"    0xffcc,0xffcc,0xffcc,1,1,0xffcc,0xffcc,0xffcc,0xffcc,0xffcc,1,0xffcc,0xffcc,1,0xffcc,0xffcc,";
"    0xffcc,0xffcc,0xffcc,1,1,1,1,1,0xffb8,0xffb8,0xffb8,0xffb8,0xffb8,0xffb8,0xffb8,1,";
"    1,1,1,1,1,1,1,1,0xffcc,0xffcc,0xffcc,0xffcc,0xffcc,0xffcc,0xfe0e,1,";
"    1,1,1,1,0x335b,0x335f,0x3363,0x3367,0x336d,0x2f4d,0x3371,0x3375,0x3379,0x337d,0x2f51,0x3381,";
"    0x3385,0x3389,0x2f55,0x338f,0x3393,0x3397,0x339b,0x33a1,0x33a5,0x33a9,0x33ad,0x33b3,0x33b7,0x33bb,0x33bf,0x303f,";
"    0x33c3,0x33c9,0x33cd,0x33d1,0x33d5,0x33d9,0x33dd,0x33e1,0x33e5,0x3053,0x2f59,0x2f5d,0x3057,0x33e9,0x33ed,0x2c59,";
"    0x33f1,0x2f61,0x33f5,0x33f9,0x33fd,0x3401,0x3401,0x3401,0x3405,0x340b,0x340f,0x3413,0x3417,0x341d,0x3421,0x3425,";
"    0x3429,0x342d,0x3431,0x3435,0x3439,0x343d,0x3441,0x3445,0x3449,0x344d,0x344d,0x305f,0x3451,0x3455,0x3459,0x345d,";
"    0x2f69,0x3461,0x3465,0x3469,0x2ebd,0x346d,0x3471,0x3475,0x3479,0x347d,0x3481,0x3485,0x3489,0x348d,0x3493,0x3497,";
"    0x349b,0x349f,0x34a3,0x34a7,0x34ab,0x34b1,0x34b7,0x34bb,0x34bf,0x34c3,0x34c7,0x34cb,0x34cf,0x34d3,0x34d7,0x34d7,";
"    0x34db,0x34e1,0x34e5,0x2c49,0x34e9,0x34ed,0x34f3,0x34f7,0x34fb,0x34ff,0x3503,0x3507,0x2f7d,0x350b,0x350f,0x3513,";
"    0x3519,0x351d,0x3523,0x3527,0x352b,0x352f,0x3533,0x3537,0x353b,0x353f,0x3543,0x3547,0x354b,0x354f,0x3555,0x3559,";
"    0x355d,0x3561,0x2b71,0x3565,0x356b,0x356f,0x356f,0x3575,0x3579,0x3579,0x357d,0x3581,0x3587,0x358d,0x3591,0x3595,";
"    0x3599,0x359d,0x35a1,0x35a5,0x35a9,0x35ad,0x35b1,0x2f81,0x35b5,0x35bb,0x35bf,0x35c3,0x308f,0x35c3,0x35c7,0x2f89,";
"    0x35cb,0x35cf,0x35d3,0x35d7,0x2f8d,0x2b05,0x35db,0x35df,0x35e3,0x35e7,0x35eb,0x35ef,0x35f3,0x35f9,0x35fd,0x3601,";
"    0x3605,0x3609,0x360d,0x3613,0x3617,0x361b,0x361f,0x3623,0x3627,0x362b,0x362f,0x3633,0x2f91,0x3637,0x363b,0x3641,";
"    0x3645,0x3649,0x364d,0x2f99,0x3651,0x3655,0x3659,0x365d,0x3661,0x3665,0x3669,0x366d,0x2b75,0x30af,0x3671,0x3675,";
"    0x3679,0x367d,0x3683,0x3687,0x368b,0x368f,0x2f9d,0x3693,0x3699,0x369d,0x36a1,0x3161,0x36a5,0x36a9,0x36ad,0x36b1,";
"    0x36b5,0x36bb,0x36bf,0x36c3,0x36c7,0x36cd,0x36d1,0x36d5,0x36d9,0x2c8d,0x36dd,0x36e1,0x36e7,0x36ed,0x36f3,0x36f7,";
"    0x36fd,0x3701,0x3705,0x3709,0x370d,0x2fa1,0x2de9,0x3711,0x3715,0x3719,0x371d,0x3723,0x3727,0x372b,0x372f,0x30bf,";
"    0x3733,0x3737,0x373d,0x3741,0x3745,0x374b,0x3751,0x3755,0x30c3,0x3759,0x375d,0x3761,0x3765,0x3769,0x376d,0x3771,";
"    0x3777,0x377b,0x3781,0x3785,0x378b,0x30cb,0x378f,0x3793,0x3799,0x379d,0x37a1,0x37a7,0x37ad,0x37b1,0x37b5,0x37b9,";
"    0x37bd,0x37bd,0x37c1,0x37c5,0x30d3,0x37c9,0x37cd,0x37d1,0x37d5,0x37d9,0x37df,0x37e3,0x2c55,0x37e9,0x37ef,0x37f3,";
"    0x37f9,0x37ff,0x3805,0x3809,0x30eb,0x380d,0x3813,0x3819,0x381f,0x3825,0x3829,0x3829,0x30ef,0x3169,0x382d,0x3831,";
"    0x3835,0x3839,0x383f,0x2bbd,0x30f7,0x3843,0x3847,0x2fcd,0x384d,0x3853,0x2f15,0x3859,0x385d,0x2fdd,0x3861,0x3865,";
"    0x3869,0x386f,0x386f,0x3875,0x3879,0x387d,0x3883,0x3887,0x388b,0x388f,0x3895,0x3899,0x389d,0x38a1,0x38a5,0x38a9,";
"    0x38af,0x38b3,0x38b7,0x38bb,0x38bf,0x38c3,0x38c7,0x38cd,0x38d3,0x38d7,0x38dd,0x38e1,0x38e7,0x38eb,0x2ff5,0x38ef,";
"    0x38f5,0x38fb,0x38ff,0x3905,0x3909,0x390f,0x3913,0x3917,0x391b,0x391f,0x3923,0x3927,0x392d,0x3933,0x3939,0x3575,";
"    0x393f,0x3943,0x3947,0x394b,0x394f,0x3953,0x3957,0x395b,0x395f,0x3963,0x3967,0x396b,0x2c9d,0x3971,0x3975,0x3979,";
"    0x397d,0x3981,0x3985,0x3001,0x3989,0x398d,0x3991,0x3995,0x3999,0x399f,0x39a5,0x39ab,0x39af,0x39b3,0x39b7,0x39bb,";
"    0x39c1,0x39c5,0x39cb,0x39cf,0x39d3,0x39d9,0x39df,0x39e3,0x2ba9,0x39e7,0x39eb,0x39ef,0x39f3,0x39f7,0x39fb,0x3113,";
"    0x39ff,0x3a03,0x3a07,0x3a0b,0x3a0f,0x3a13,0x3a17,0x3a1b,0x3a1f,0x3a23,0x3a29,0x3a2d,0x3a31,0x3a35,0x3a39,0x3a3d,";
"    0x3a43,0x3a49,0x3a4d,0x3a51,0x3127,0x312b,0x3a55,0x3a59,0x3a5f,0x3a63,0x3a67,0x3a6b,0x3a6f,0x3a75,0x3a7b,0x3a7f,";
"    0x3a83,0x3a87,0x3a8d,0x312f,0x3a91,0x3a97,0x3a9d,0x3aa1,0x3aa5,0x3aa9,0x3aaf,0x3ab3,0x3ab7,0x3abb,0x3abf,0x3ac3,";
"    0x3ac7,0x3acb,0x3ad1,0x3ad5,0x3ad9,0x3add,0x3ae3,0x3ae7,0x3aeb,0x3aef,0x3af3,0x3af9,0x3aff,0x3b03,0x3b07,0x3b0b,";
"    0x3b11,0x3b15,0x3147,0x3147,0x3b1b,0x3b1f,0x3b25,0x3b29,0x3b2d,0x3b31,0x3b35,0x3b39,0x3b3d,0x3b41,0x314b,0x3b47,";
"    0x3b4b,0x3b4f,0x3b53,0x3b57,0x3b5b,0x3b61,0x3b65,0x3b6b,0x3b71,0x3b77,0x3b7b,0x3b7f,0x3b83,0x3b87,0x3b8b,0x3b8f,";
"    0x3b93,0x3b97,1,1";
"]";
"";
"norm2_nfc_data_extraData = [";
"    0xffff,0xffff,0x8670,0x44dc,0x8670,0x44c0,0x8670,0x44de,0x600,0x180,0x602,0x182,0x604,0x185,0x606,0x186,";
"    0x608,0x200,0x60c,0x205,0x60e,0x44d,0x610,0x189,0x612,0x3d44,0x614,0x18b,0x618,0x39a,0x61e,0x400,";
"    0x622,0x404,0x646,0x3d41,0x64a,0x3c00,0x8650,0x208,0x60e,0x3c04,0x646,0x3c08,0x8662,0x3c0c,0x602,0x20c,";
"    0x604,0x210,0x60e,0x214,0x618,0x218,0x864e,0x18f,0x60e,0x3c14,0x618,0x21c,0x646,0x3c18,0x64e,0x3c20,";
"    0x65a,0x3c24,0x8662,0x3c1c,0x600,0x190,0x602,0x192,0x604,0x195,0x606,0x3d78,0x608,0x225,0x60c,0x228,";
"    0x60e,0x22c,0x610,0x196,0x612,0x3d74,0x618,0x234,0x61e,0x408,0x622,0x40c,0x646,0x3d71,0x64e,0x451,";
"    0x650,0x230,0x65a,0x3c30,0x8660,0x3c34,0x860e,0x3c3c,0x602,0x3e8,0x604,0x238,0x608,0x3c40,0x60c,0x23c,";
"    0x60e,0x240,0x618,0x3cc,0x864e,0x244,0x604,0x248,0x60e,0x3c44,0x610,0x3c4c,0x618,0x43c,0x646,0x3c48,";
"    0x64e,0x3c50,0x865c,0x3c54,0x600,0x198,0x602,0x19a,0x604,0x19c,0x606,0x250,0x608,0x254,0x60c,0x258,";
"    0x60e,0x260,0x610,0x19f,0x612,0x3d90,0x618,0x39e,0x61e,0x410,0x622,0x414,0x646,0x3d94,0x650,0x25c,";
"    0x8660,0x3c58,0x8604,0x268,0x602,0x3c60,0x618,0x3d0,0x646,0x3c64,0x64e,0x26c,0x8662,0x3c68,0x602,0x272,";
"    0x618,0x27a,0x646,0x3c6d,0x64e,0x276,0x65a,0x3c78,0x8662,0x3c74,0x602,0x3c7c,0x60e,0x3c80,0x8646,0x3c84,";
"    0x600,0x3f0,0x602,0x286,0x606,0x1a2,0x60e,0x3c88,0x618,0x28e,0x646,0x3c8c,0x64e,0x28a,0x65a,0x3c94,";
"    0x8662,0x3c90,0x600,0x1a4,0x602,0x1a6,0x604,0x1a9,0x606,0x1ab,0x608,0x299,0x60c,0x29c,0x60e,0x45d,";
"    0x610,0x1ad,0x612,0x3d9c,0x616,0x2a0,0x618,0x3a2,0x61e,0x418,0x622,0x41c,0x636,0x341,0x646,0x3d99,";
"    0x8650,0x3d5,0x602,0x3ca8,0x860e,0x3cac,0x602,0x2a8,0x60e,0x3cb0,0x618,0x2b0,0x61e,0x420,0x622,0x424,";
"    0x646,0x3cb5,0x64e,0x2ac,0x8662,0x3cbc,0x602,0x2b5,0x604,0x2b8,0x60e,0x3cc0,0x618,0x2c1,0x646,0x3cc5,";
"    0x64c,0x430,0x864e,0x2bc,0x60e,0x3cd4,0x618,0x2c8,0x646,0x3cd8,0x64c,0x434,0x64e,0x2c4,0x65a,0x3ce0,";
"    0x8662,0x3cdc,0x600,0x1b2,0x602,0x1b4,0x604,0x1b6,0x606,0x2d1,0x608,0x2d5,0x60c,0x2d8,0x610,0x1b9,";
"    0x612,0x3dcc,0x614,0x2dc,0x616,0x2e0,0x618,0x3a6,0x61e,0x428,0x622,0x42c,0x636,0x35f,0x646,0x3dc8,";
"    0x648,0x3ce4,0x650,0x2e4,0x65a,0x3cec,0x8660,0x3ce8,0x606,0x3cf8,0x8646,0x3cfc,0x600,0x3d00,0x602,0x3d04,";
"    0x604,0x2e8,0x60e,0x3d0c,0x610,0x3d08,0x8646,0x3d10,0x60e,0x3d14,0x8610,0x3d18,0x600,0x3de4,0x602,0x1ba,";
"    0x604,0x2ec,0x606,0x3df0,0x608,0x464,0x60e,0x3d1c,0x610,0x2f0,0x612,0x3dec,0x8646,0x3de8,0x602,0x2f2,";
"    0x604,0x3d20,0x60e,0x2f6,0x618,0x2fa,0x646,0x3d24,0x8662,0x3d28,0x600,0x1c0,0x602,0x1c2,0x604,0x1c5,";
"    0x606,0x1c6,0x608,0x202,0x60c,0x207,0x60e,0x44f,0x610,0x1c9,0x612,0x3d46,0x614,0x1cb,0x618,0x39c,";
"    0x61e,0x402,0x622,0x406,0x646,0x3d43,0x64a,0x3c02,0x8650,0x20a,0x60e,0x3c06,0x646,0x3c0a,0x8662,0x3c0e,";
"    0x602,0x20e,0x604,0x212,0x60e,0x216,0x618,0x21a,0x864e,0x1cf,0x60e,0x3c16,0x618,0x21e,0x646,0x3c1a,";
"    0x64e,0x3c22,0x65a,0x3c26,0x8662,0x3c1e,0x600,0x1d0,0x602,0x1d2,0x604,0x1d5,0x606,0x3d7a,0x608,0x227,";
"    0x60c,0x22a,0x60e,0x22e,0x610,0x1d6,0x612,0x3d76,0x618,0x236,0x61e,0x40a,0x622,0x40e,0x646,0x3d73,";
"    0x64e,0x453,0x650,0x232,0x65a,0x3c32,0x8660,0x3c36,0x860e,0x3c3e,0x602,0x3ea,0x604,0x23a,0x608,0x3c42,";
"    0x60c,0x23e,0x60e,0x242,0x618,0x3ce,0x864e,0x246,0x604,0x24a,0x60e,0x3c46,0x610,0x3c4e,0x618,0x43e,";
"    0x646,0x3c4a,0x64e,0x3c52,0x65c,0x3c56,0x8662,0x3d2c,0x600,0x1d8,0x602,0x1da,0x604,0x1dc,0x606,0x252,";
"    0x608,0x256,0x60c,0x25a,0x610,0x1df,0x612,0x3d92,0x618,0x3a0,0x61e,0x412,0x622,0x416,0x646,0x3d96,";
"    0x650,0x25e,0x8660,0x3c5a,0x604,0x26a,0x8618,0x3e0,0x602,0x3c62,0x618,0x3d2,0x646,0x3c66,0x64e,0x26e,";
"    0x8662,0x3c6a,0x602,0x274,0x618,0x27c,0x646,0x3c6f,0x64e,0x278,0x65a,0x3c7a,0x8662,0x3c76,0x602,0x3c7e,";
"    0x60e,0x3c82,0x8646,0x3c86,0x600,0x3f2,0x602,0x288,0x606,0x1e2,0x60e,0x3c8a,0x618,0x290,0x646,0x3c8e,";
"    0x64e,0x28c,0x65a,0x3c96,0x8662,0x3c92,0x600,0x1e4,0x602,0x1e6,0x604,0x1e9,0x606,0x1eb,0x608,0x29b,";
"    0x60c,0x29e,0x60e,0x45f,0x610,0x1ed,0x612,0x3d9e,0x616,0x2a2,0x618,0x3a4,0x61e,0x41a,0x622,0x41e,";
"    0x636,0x343,0x646,0x3d9b,0x8650,0x3d7,0x602,0x3caa,0x860e,0x3cae,0x602,0x2aa,0x60e,0x3cb2,0x618,0x2b2,";
"    0x61e,0x422,0x622,0x426,0x646,0x3cb7,0x64e,0x2ae,0x8662,0x3cbe,0x602,0x2b7,0x604,0x2ba,0x60e,0x3cc2,";
"    0x618,0x2c3,0x646,0x3cc7,0x64c,0x432,0x864e,0x2be,0x60e,0x3cd6,0x610,0x3d2e,0x618,0x2ca,0x646,0x3cda,";
"    0x64c,0x436,0x64e,0x2c6,0x65a,0x3ce2,0x8662,0x3cde,0x600,0x1f2,0x602,0x1f4,0x604,0x1f6,0x606,0x2d3,";
"    0x608,0x2d7,0x60c,0x2da,0x610,0x1f9,0x612,0x3dce,0x614,0x2de,0x616,0x2e2,0x618,0x3a8,0x61e,0x42a,";
"    0x622,0x42e,0x636,0x361,0x646,0x3dca,0x648,0x3ce6,0x650,0x2e6,0x65a,0x3cee,0x8660,0x3cea,0x606,0x3cfa,";
"    0x8646,0x3cfe,0x600,0x3d02,0x602,0x3d06,0x604,0x2ea,0x60e,0x3d0e,0x610,0x3d0a,0x614,0x3d30,0x8646,0x3d12,";
"    0x60e,0x3d16,0x8610,0x3d1a,0x600,0x3de6,0x602,0x1fa,0x604,0x2ee,0x606,0x3df2,0x608,0x466,0x60e,0x3d1e,";
"    0x610,0x1fe,0x612,0x3dee,0x614,0x3d32,0x8646,0x3dea,0x602,0x2f4,0x604,0x3d22,0x60e,0x2f8,0x618,0x2fc,";
"    0x646,0x3d26,0x8662,0x3d2a,0x600,0x3fda,0x602,0x70a,0x8684,0x3f82,0x602,0x3f8,0x8608,0x3c4,0x8602,0x3fc,";
"    0x602,0x3fa,0x8608,0x3c6,0x8602,0x3fe,0x860e,0x3d36,0x8618,0x3dc,0x8618,0x3de,0x600,0x3f74,0x602,0x70c,";
"    0x608,0x3f72,0x60c,0x3f70,0x626,0x3e11,0x628,0x3e13,0x868a,0x3f78,0x600,0x3f90,0x602,0x710,0x626,0x3e31,";
"    0x8628,0x3e33,0x600,0x3f94,0x602,0x712,0x626,0x3e51,0x628,0x3e53,0x868a,0x3f98,0x600,0x3fb4,0x602,0x714,";
"    0x608,0x3fb2,0x60c,0x3fb0,0x610,0x754,0x626,0x3e71,0x8628,0x3e73,0x600,0x3ff0,0x602,0x718,0x626,0x3e91,";
"    0x8628,0x3e93,0x8628,0x3fd8,0x600,0x3fd4,0x602,0x71c,0x608,0x3fd2,0x60c,0x3fd0,0x610,0x756,0x8628,0x3eb3,";
"    0x600,0x3ff4,0x602,0x71e,0x626,0x3ed1,0x628,0x3ed3,0x868a,0x3ff8,0x600,0x3ee1,0x602,0x759,0x608,0x3f62,";
"    0x60c,0x3f60,0x626,0x3e01,0x628,0x3e03,0x684,0x3f6d,0x868a,0x3f66,0x600,0x3ee4,0x602,0x75a,0x626,0x3e21,";
"    0x8628,0x3e23,0x600,0x3ee9,0x602,0x75d,0x626,0x3e41,0x628,0x3e43,0x684,0x3f8d,0x868a,0x3f86,0x600,0x3eec,";
"    0x602,0x75e,0x608,0x3fa2,0x60c,0x3fa0,0x610,0x795,0x626,0x3e61,0x628,0x3e63,0x8684,0x3fac,0x600,0x3ef0,";
"    0x602,0x798,0x626,0x3e81,0x8628,0x3e83,0x626,0x3fc8,0x8628,0x3fca,0x600,0x3ef4,0x602,0x79a,0x608,0x3fc2,";
"    0x60c,0x3fc0,0x610,0x797,0x626,0x3ea1,0x628,0x3ea3,0x8684,0x3fcc,0x600,0x3ef9,0x602,0x79d,0x626,0x3ec1,";
"    0x628,0x3ec3,0x684,0x3fed,0x868a,0x3fe6,0x602,0x7a6,0x8610,0x7a8,0x8610,0x80e,0x60c,0x9a0,0x8610,0x9a4,";
"    0x8602,0x806,0x600,0x800,0x60c,0x9ac,0x8610,0x802,0x60c,0x982,0x8610,0x9b8,0x8610,0x9bc,0x600,0x81a,";
"    0x608,0x9c4,0x60c,0x832,0x8610,0x9c8,0x8602,0x818,0x8610,0x9cc,0x608,0x9dc,0x60c,0x81c,0x610,0x9e0,";
"    0x8616,0x9e4,0x8610,0x9e8,0x8610,0x9f0,0x8610,0x9d8,0x60c,0x9a2,0x8610,0x9a6,0x8602,0x8a6,0x600,0x8a0,";
"    0x60c,0x9ae,0x8610,0x8a2,0x60c,0x984,0x8610,0x9ba,0x8610,0x9be,0x600,0x8ba,0x608,0x9c6,0x60c,0x872,";
"    0x8610,0x9ca,0x8602,0x8b8,0x8610,0x9ce,0x608,0x9de,0x60c,0x8bc,0x610,0x9e2,0x8616,0x9e6,0x8610,0x9ea,";
"    0x8610,0x9f2,0x8610,0x9da,0x8610,0x8ae,0x861e,0x8ec,0x861e,0x8ee,0x8610,0x9b4,0x8610,0x9b6,0x8610,0x9d4,";
"    0x8610,0x9d6,0xca6,0xc44,0xca8,0xc46,0x8caa,0xc4a,0x8ca8,0xc48,0x8ca8,0xc4c,0x8ca8,0xd84,0x8ca8,0xda6,";
"    0x8ca8,0xd80,0x9278,0x1252,0x9278,0x1262,0x9278,0x1268,0x137c,0x1396,0x93ae,0x1398,0x167c,0x1696,0x16ac,0x1690,";
"    0x96ae,0x1698,0x97ae,0x1728,0x177c,0x1794,0x97ae,0x1798,0x977c,0x1796,0x98ac,0x1890,0x99aa,0x1980,0x1984,0x1995,";
"    0x19aa,0x198e,0x99ac,0x1990,0x1a7c,0x1a94,0x9aae,0x1a98,0x9a7c,0x1a96,0x1b94,0x1bb4,0x1b9e,0x1bb9,0x9bbe,0x1bbc,";
"    0xa05c,0x204c,0xb66a,0x360c,0xb66a,0x3610,0xb66a,0x3614,0xb66a,0x3618,0xb66a,0x361c,0xb66a,0x3624,0xb66a,0x3676,";
"    0xb66a,0x367a,0xb66a,0x3680,0xb66a,0x3682,0xb66a,0x3686,0x600,0x3f9a,0x602,0x3f9c,0x8684,0x3f9e,0x600,0x3fba,";
"    0x602,0x3fbc,0x8684,0x3fbe,0x8670,0x4334,0x8670,0x4336,0x8670,0x435c,0x8670,0x439a,0x8670,0x439e,0x8670,0x439c,";
"    0x8670,0x4408,0x8670,0x4412,0x8670,0x4418,0x8670,0x4448,0x8670,0x444c,0x8670,0x4482,0x8670,0x4488,0x8670,0x448e,";
"    0x8670,0x4492,0x8670,0x44da,0x8670,0x44c4,0x8670,0x44e0,0x8670,0x44e2,0x8670,0x44e8,0x8670,0x44ea,0x8670,0x44f0,";
"    0x8670,0x44f2,0x8670,0x4500,0x8670,0x4502,0x8670,0x45c0,0x8670,0x45c2,0x8670,0x4508,0x8670,0x450a,0x8670,0x4510,";
"    0x8670,0x4512,0x8670,0x45c4,0x8670,0x45c6,0x8670,0x4558,0x8670,0x455a,0x8670,0x455c,0x8670,0x455e,0x8670,0x45d4,";
"    0x8670,0x45d6,0x8670,0x45d8,0x8670,0x45da,0xe132,0x6128,0xe132,0x6098,0xe132,0x609c,0xe132,0x60a0,0xe132,0x60a4,";
"    0xe132,0x60a8,0xe132,0x60ac,0xe132,0x60b0,0xe132,0x60b4,0xe132,0x60b8,0xe132,0x60bc,0xe132,0x60c0,0xe132,0x60c4,";
"    0xe132,0x60ca,0xe132,0x60ce,0xe132,0x60d2,0x6132,0x60e0,0xe134,0x60e2,0x6132,0x60e6,0xe134,0x60e8,0x6132,0x60ec,";
"    0xe134,0x60ee,0x6132,0x60f2,0xe134,0x60f4,0x6132,0x60f8,0xe134,0x60fa,0xe132,0x613c,0xe132,0x61e8,0xe132,0x6158,";
"    0xe132,0x615c,0xe132,0x6160,0xe132,0x6164,0xe132,0x6168,0xe132,0x616c,0xe132,0x6170,0xe132,0x6174,0xe132,0x6178,";
"    0xe132,0x617c,0xe132,0x6180,0xe132,0x6184,0xe132,0x618a,0xe132,0x618e,0xe132,0x6192,0x6132,0x61a0,0xe134,0x61a2,";
"    0x6132,0x61a6,0xe134,0x61a8,0x6132,0x61ac,0xe134,0x61ae,0x6132,0x61b2,0xe134,0x61b4,0x6132,0x61b8,0xe134,0x61ba,";
"    0xe132,0x61ee,0xe132,0x61f0,0xe132,0x61f2,0xe132,0x61f4,0xe132,0x61fc,0xb489,0x2e82,0x2134,0xb489,0x2e82,0x2138,";
"    0xb489,0x2e82,0x2156,0xb489,0x49c2,0x225c,0xb489,0x49c2,0x225e,0x3489,0xcf82,0x2696,0xb489,0xd5c2,0x2698,0x348b,";
"    0x2c02,0x2978,0x348b,0x2e82,0x2976,0xb48b,0x2f42,0x297c,0xb48b,0x6bc2,0x2b74,0xb48b,0x6bc2,0x2b76,0xb48d,0x4c02,";
"    0x3270,2,0xe602,0x41,0x302,0x600,0x3d4c,0x602,0x3d48,0x606,0x3d54,0x8612,0x3d50,0xe602,0x41,0x308,";
"    0x8608,0x3bc,0xe602,0x41,0x30a,0x8602,0x3f4,0xca02,0x43,0x327,0x8602,0x3c10,0xe602,0x45,0x302,0x600,";
"    0x3d80,0x602,0x3d7c,0x606,0x3d88,0x8612,0x3d84,0xe602,0x49,0x308,0x8602,0x3c5c,0xe602,0x4f,0x302,0x600,";
"    0x3da4,0x602,0x3da0,0x606,0x3dac,0x8612,0x3da8,0xe602,0x4f,0x303,0x602,0x3c98,0x608,0x458,0x8610,0x3c9c,";
"    0xe602,0x4f,0x308,0x8608,0x454,0xe602,0x55,0x308,0x600,0x3b6,0x602,0x3ae,0x608,0x3aa,0x8618,0x3b2,";
"    0xe602,0x61,0x302,0x600,0x3d4e,0x602,0x3d4a,0x606,0x3d56,0x8612,0x3d52,0xe602,0x61,0x308,0x8608,0x3be,";
"    0xe602,0x61,0x30a,0x8602,0x3f6,0xca02,0x63,0x327,0x8602,0x3c12,0xe602,0x65,0x302,0x600,0x3d82,0x602,";
"    0x3d7e,0x606,0x3d8a,0x8612,0x3d86,0xe602,0x69,0x308,0x8602,0x3c5e,0xe602,0x6f,0x302,0x600,0x3da6,0x602,";
"    0x3da2,0x606,0x3dae,0x8612,0x3daa,0xe602,0x6f,0x303,0x602,0x3c9a,0x608,0x45a,0x8610,0x3c9e,0xe602,0x6f,";
"    0x308,0x8608,0x456,0xe602,0x75,0x308,0x600,0x3b8,0x602,0x3b0,0x608,0x3ac,0x8618,0x3b4,0xe602,0x41,";
"    0x306,0x600,0x3d60,0x602,0x3d5c,0x606,0x3d68,0x8612,0x3d64,0xe602,0x61,0x306,0x600,0x3d62,0x602,0x3d5e,";
"    0x606,0x3d6a,0x8612,0x3d66,0xe602,0x45,0x304,0x600,0x3c28,0x8602,0x3c2c,0xe602,0x65,0x304,0x600,0x3c2a,";
"    0x8602,0x3c2e,0xe602,0x4f,0x304,0x600,0x3ca0,0x8602,0x3ca4,0xe602,0x6f,0x304,0x600,0x3ca2,0x8602,0x3ca6,";
"    0xe602,0x53,0x301,0x860e,0x3cc8,0xe602,0x73,0x301,0x860e,0x3cca,0xe602,0x53,0x30c,0x860e,0x3ccc,0xe602,";
"    0x73,0x30c,0x860e,0x3cce,0xe602,0x55,0x303,0x8602,0x3cf0,0xe602,0x75,0x303,0x8602,0x3cf2,0xe602,0x55,";
"    0x304,0x8610,0x3cf4,0xe602,0x75,0x304,0x8610,0x3cf6,0xd802,0x4f,0x31b,0x600,0x3db8,0x602,0x3db4,0x606,";
"    0x3dc0,0x612,0x3dbc,0x8646,0x3dc4,0xd802,0x6f,0x31b,0x600,0x3dba,0x602,0x3db6,0x606,0x3dc2,0x612,0x3dbe,";
"    0x8646,0x3dc6,0xd802,0x55,0x31b,0x600,0x3dd4,0x602,0x3dd0,0x606,0x3ddc,0x612,0x3dd8,0x8646,0x3de0,0xd802,";
"    0x75,0x31b,0x600,0x3dd6,0x602,0x3dd2,0x606,0x3dde,0x612,0x3dda,0x8646,0x3de2,0xca02,0x4f,0x328,0x8608,";
"    0x3d8,0xca02,0x6f,0x328,0x8608,0x3da,0xe602,0x41,0x307,0x8608,0x3c0,0xe602,0x61,0x307,0x8608,0x3c2,";
"    0xca02,0x45,0x327,0x860c,0x3c38,0xca02,0x65,0x327,0x860c,0x3c3a,0xe602,0x4f,0x307,0x8608,0x460,0xe602,";
"    0x6f,0x307,0x8608,0x462,0xe602,0x3b1,0x301,0x868a,0x3f68,0xe602,0x3b7,0x301,0x868a,0x3f88,0xe602,0x3b9,";
"    0x308,0x600,0x3fa4,0x602,0x720,0x8684,0x3fae,0xe602,0x3c5,0x308,0x600,0x3fc4,0x602,0x760,0x8684,0x3fce,";
"    0xe602,0x3c9,0x301,0x868a,0x3fe8,2,0xcc6,0xcc2,0x99aa,0x1996,2,0xdd9,0xdcf,0x9b94,0x1bba,0xdc02,";
"    0x4c,0x323,0x8608,0x3c70,0xdc02,0x6c,0x323,0x8608,0x3c72,0xdc02,0x52,0x323,0x8608,0x3cb8,0xdc02,0x72,";
"    0x323,0x8608,0x3cba,0xdc02,0x53,0x323,0x860e,0x3cd0,0xdc02,0x73,0x323,0x860e,0x3cd2,0xdc02,0x41,0x323,";
"    0x604,0x3d58,0x860c,0x3d6c,0xdc02,0x61,0x323,0x604,0x3d5a,0x860c,0x3d6e,0xdc02,0x45,0x323,0x8604,0x3d8c,";
"    0xdc02,0x65,0x323,0x8604,0x3d8e,0xdc02,0x4f,0x323,0x8604,0x3db0,0xdc02,0x6f,0x323,0x8604,0x3db2,0xe602,";
"    0x3b1,0x313,0x600,0x3e05,0x602,0x3e09,0x684,0x3e0d,0x868a,0x3f00,0xe602,0x3b1,0x314,0x600,0x3e07,0x602,";
"    0x3e0b,0x684,0x3e0f,0x868a,0x3f02,0x1f00,0xe643,0x3b1,0x313,0x300,0x868a,0x3f04,0x1f01,0xe643,0x3b1,0x314,";
"    0x300,0x868a,0x3f06,0x1f00,0xe643,0x3b1,0x313,0x301,0x868a,0x3f08,0x1f01,0xe643,0x3b1,0x314,0x301,0x868a,";
"    0x3f0a,0x1f00,0xe643,0x3b1,0x313,0x342,0x868a,0x3f0c,0x1f01,0xe643,0x3b1,0x314,0x342,0x868a,0x3f0e,0xe602,";
"    0x391,0x313,0x600,0x3e15,0x602,0x3e19,0x684,0x3e1d,0x868a,0x3f10,0xe602,0x391,0x314,0x600,0x3e17,0x602,";
"    0x3e1b,0x684,0x3e1f,0x868a,0x3f12,0x1f08,0xe643,0x391,0x313,0x300,0x868a,0x3f14,0x1f09,0xe643,0x391,0x314,";
"    0x300,0x868a,0x3f16,0x1f08,0xe643,0x391,0x313,0x301,0x868a,0x3f18,0x1f09,0xe643,0x391,0x314,0x301,0x868a,";
"    0x3f1a,0x1f08,0xe643,0x391,0x313,0x342,0x868a,0x3f1c,0x1f09,0xe643,0x391,0x314,0x342,0x868a,0x3f1e,0xe602,";
"    0x3b5,0x313,0x600,0x3e24,0x8602,0x3e28,0xe602,0x3b5,0x314,0x600,0x3e26,0x8602,0x3e2a,0xe602,0x395,0x313,";
"    0x600,0x3e34,0x8602,0x3e38,0xe602,0x395,0x314,0x600,0x3e36,0x8602,0x3e3a,0xe602,0x3b7,0x313,0x600,0x3e45,";
"    0x602,0x3e49,0x684,0x3e4d,0x868a,0x3f20,0xe602,0x3b7,0x314,0x600,0x3e47,0x602,0x3e4b,0x684,0x3e4f,0x868a,";
"    0x3f22,0x1f20,0xe643,0x3b7,0x313,0x300,0x868a,0x3f24,0x1f21,0xe643,0x3b7,0x314,0x300,0x868a,0x3f26,0x1f20,";
"    0xe643,0x3b7,0x313,0x301,0x868a,0x3f28,0x1f21,0xe643,0x3b7,0x314,0x301,0x868a,0x3f2a,0x1f20,0xe643,0x3b7,";
"    0x313,0x342,0x868a,0x3f2c,0x1f21,0xe643,0x3b7,0x314,0x342,0x868a,0x3f2e,0xe602,0x397,0x313,0x600,0x3e55,";
"    0x602,0x3e59,0x684,0x3e5d,0x868a,0x3f30,0xe602,0x397,0x314,0x600,0x3e57,0x602,0x3e5b,0x684,0x3e5f,0x868a,";
"    0x3f32,0x1f28,0xe643,0x397,0x313,0x300,0x868a,0x3f34,0x1f29,0xe643,0x397,0x314,0x300,0x868a,0x3f36,0x1f28,";
"    0xe643,0x397,0x313,0x301,0x868a,0x3f38,0x1f29,0xe643,0x397,0x314,0x301,0x868a,0x3f3a,0x1f28,0xe643,0x397,";
"    0x313,0x342,0x868a,0x3f3c,0x1f29,0xe643,0x397,0x314,0x342,0x868a,0x3f3e,0xe602,0x3b9,0x313,0x600,0x3e64,";
"    0x602,0x3e68,0x8684,0x3e6c,0xe602,0x3b9,0x314,0x600,0x3e66,0x602,0x3e6a,0x8684,0x3e6e,0xe602,0x399,0x313,";
"    0x600,0x3e74,0x602,0x3e78,0x8684,0x3e7c,0xe602,0x399,0x314,0x600,0x3e76,0x602,0x3e7a,0x8684,0x3e7e,0xe602,";
"    0x3bf,0x313,0x600,0x3e84,0x8602,0x3e88,0xe602,0x3bf,0x314,0x600,0x3e86,0x8602,0x3e8a,0xe602,0x39f,0x313,";
"    0x600,0x3e94,0x8602,0x3e98,0xe602,0x39f,0x314,0x600,0x3e96,0x8602,0x3e9a,0xe602,0x3c5,0x313,0x600,0x3ea4,";
"    0x602,0x3ea8,0x8684,0x3eac,0xe602,0x3c5,0x314,0x600,0x3ea6,0x602,0x3eaa,0x8684,0x3eae,0xe602,0x3a5,0x314,";
"    0x600,0x3eb6,0x602,0x3eba,0x8684,0x3ebe,0xe602,0x3c9,0x313,0x600,0x3ec5,0x602,0x3ec9,0x684,0x3ecd,0x868a,";
"    0x3f40,0xe602,0x3c9,0x314,0x600,0x3ec7,0x602,0x3ecb,0x684,0x3ecf,0x868a,0x3f42,0x1f60,0xe643,0x3c9,0x313,";
"    0x300,0x868a,0x3f44,0x1f61,0xe643,0x3c9,0x314,0x300,0x868a,0x3f46,0x1f60,0xe643,0x3c9,0x313,0x301,0x868a,";
"    0x3f48,0x1f61,0xe643,0x3c9,0x314,0x301,0x868a,0x3f4a,0x1f60,0xe643,0x3c9,0x313,0x342,0x868a,0x3f4c,0x1f61,";
"    0xe643,0x3c9,0x314,0x342,0x868a,0x3f4e,0xe602,0x3a9,0x313,0x600,0x3ed5,0x602,0x3ed9,0x684,0x3edd,0x868a,";
"    0x3f50,0xe602,0x3a9,0x314,0x600,0x3ed7,0x602,0x3edb,0x684,0x3edf,0x868a,0x3f52,0x1f68,0xe643,0x3a9,0x313,";
"    0x300,0x868a,0x3f54,0x1f69,0xe643,0x3a9,0x314,0x300,0x868a,0x3f56,0x1f68,0xe643,0x3a9,0x313,0x301,0x868a,";
"    0x3f58,0x1f69,0xe643,0x3a9,0x314,0x301,0x868a,0x3f5a,0x1f68,0xe643,0x3a9,0x313,0x342,0x868a,0x3f5c,0x1f69,";
"    0xe643,0x3a9,0x314,0x342,0x868a,0x3f5e,0xe602,0x3b1,0x300,0x868a,0x3f64,0xe602,0x3b7,0x300,0x868a,0x3f84,";
"    0xe602,0x3c9,0x300,0x868a,0x3fe4,0xe602,0x3b1,0x342,0x868a,0x3f6e,0xe602,0x3b7,0x342,0x868a,0x3f8e,0xe602,";
"    0x3c9,0x342,0x868a,0x3fee,3,0xe602,0x41,0x300,0xe602,0x41,0x301,0xe602,0x41,0x303,0xe602,0x45,";
"    0x300,0xe602,0x45,0x301,0xe602,0x45,0x308,0xe602,0x49,0x300,0xe602,0x49,0x301,0xe602,0x49,0x302,";
"    0xe602,0x4e,0x303,0xe602,0x4f,0x300,0xe602,0x4f,0x301,0xe602,0x55,0x300,0xe602,0x55,0x301,0xe602,";
"    0x55,0x302,0xe602,0x59,0x301,0xe602,0x61,0x300,0xe602,0x61,0x301,0xe602,0x61,0x303,0xe602,0x65,";
"    0x300,0xe602,0x65,0x301,0xe602,0x65,0x308,0xe602,0x69,0x300,0xe602,0x69,0x301,0xe602,0x69,0x302,";
"    0xe602,0x6e,0x303,0xe602,0x6f,0x300,0xe602,0x6f,0x301,0xe602,0x75,0x300,0xe602,0x75,0x301,0xe602,";
"    0x75,0x302,0xe602,0x79,0x301,0xe602,0x79,0x308,0xe602,0x41,0x304,0xe602,0x61,0x304,0xca02,0x41,";
"    0x328,0xca02,0x61,0x328,0xe602,0x43,0x301,0xe602,0x63,0x301,0xe602,0x43,0x302,0xe602,0x63,0x302,";
"    0xe602,0x43,0x307,0xe602,0x63,0x307,0xe602,0x43,0x30c,0xe602,0x63,0x30c,0xe602,0x44,0x30c,0xe602,";
"    0x64,0x30c,0xe602,0x45,0x306,0xe602,0x65,0x306,0xe602,0x45,0x307,0xe602,0x65,0x307,0xca02,0x45,";
"    0x328,0xca02,0x65,0x328,0xe602,0x45,0x30c,0xe602,0x65,0x30c,0xe602,0x47,0x302,0xe602,0x67,0x302,";
"    0xe602,0x47,0x306,0xe602,0x67,0x306,0xe602,0x47,0x307,0xe602,0x67,0x307,0xca02,0x47,0x327,0xca02,";
"    0x67,0x327,0xe602,0x48,0x302,0xe602,0x68,0x302,0xe602,0x49,0x303,0xe602,0x69,0x303,0xe602,0x49,";
"    0x304,0xe602,0x69,0x304,0xe602,0x49,0x306,0xe602,0x69,0x306,0xca02,0x49,0x328,0xca02,0x69,0x328,";
"    0xe602,0x49,0x307,0xe602,0x4a,0x302,0xe602,0x6a,0x302,0xca02,0x4b,0x327,0xca02,0x6b,0x327,0xe602,";
"    0x4c,0x301,0xe602,0x6c,0x301,0xca02,0x4c,0x327,0xca02,0x6c,0x327,0xe602,0x4c,0x30c,0xe602,0x6c,";
"    0x30c,0xe602,0x4e,0x301,0xe602,0x6e,0x301,0xca02,0x4e,0x327,0xca02,0x6e,0x327,0xe602,0x4e,0x30c,";
"    0xe602,0x6e,0x30c,0xe602,0x4f,0x306,0xe602,0x6f,0x306,0xe602,0x4f,0x30b,0xe602,0x6f,0x30b,0xe602,";
"    0x52,0x301,0xe602,0x72,0x301,0xca02,0x52,0x327,0xca02,0x72,0x327,0xe602,0x52,0x30c,0xe602,0x72,";
"    0x30c,0xe602,0x53,0x302,0xe602,0x73,0x302,0xca02,0x53,0x327,0xca02,0x73,0x327,0xca02,0x54,0x327,";
"    0xca02,0x74,0x327,0xe602,0x54,0x30c,0xe602,0x74,0x30c,0xe602,0x55,0x306,0xe602,0x75,0x306,0xe602,";
"    0x55,0x30a,0xe602,0x75,0x30a,0xe602,0x55,0x30b,0xe602,0x75,0x30b,0xca02,0x55,0x328,0xca02,0x75,";
"    0x328,0xe602,0x57,0x302,0xe602,0x77,0x302,0xe602,0x59,0x302,0xe602,0x79,0x302,0xe602,0x59,0x308,";
"    0xe602,0x5a,0x301,0xe602,0x7a,0x301,0xe602,0x5a,0x307,0xe602,0x7a,0x307,0xe602,0x5a,0x30c,0xe602,";
"    0x7a,0x30c,0xe602,0x41,0x30c,0xe602,0x61,0x30c,0xe602,0x49,0x30c,0xe602,0x69,0x30c,0xe602,0x4f,";
"    0x30c,0xe602,0x6f,0x30c,0xe602,0x55,0x30c,0xe602,0x75,0x30c,0xdc,0xe643,0x55,0x308,0x304,0xfc,";
"    0xe643,0x75,0x308,0x304,0xdc,0xe643,0x55,0x308,0x301,0xfc,0xe643,0x75,0x308,0x301,0xdc,0xe643,";
"    0x55,0x308,0x30c,0xfc,0xe643,0x75,0x308,0x30c,0xdc,0xe643,0x55,0x308,0x300,0xfc,0xe643,0x75,";
"    0x308,0x300,0xc4,0xe643,0x41,0x308,0x304,0xe4,0xe643,0x61,0x308,0x304,0x226,0xe643,0x41,0x307,";
"    0x304,0x227,0xe643,0x61,0x307,0x304,0xe602,0xc6,0x304,0xe602,0xe6,0x304,0xe602,0x47,0x30c,0xe602,";
"    0x67,0x30c,0xe602,0x4b,0x30c,0xe602,0x6b,0x30c,0x1ea,0xe643,0x4f,0x328,0x304,0x1eb,0xe643,0x6f,";
"    0x328,0x304,0xe602,0x1b7,0x30c,0xe602,0x292,0x30c,0xe602,0x6a,0x30c,0xe602,0x47,0x301,0xe602,0x67,";
"    0x301,0xe602,0x4e,0x300,0xe602,0x6e,0x300,0xc5,0xe643,0x41,0x30a,0x301,0xe5,0xe643,0x61,0x30a,";
"    0x301,0xe602,0xc6,0x301,0xe602,0xe6,0x301,0xe602,0xd8,0x301,0xe602,0xf8,0x301,0xe602,0x41,0x30f,";
"    0xe602,0x61,0x30f,0xe602,0x41,0x311,0xe602,0x61,0x311,0xe602,0x45,0x30f,0xe602,0x65,0x30f,0xe602,";
"    0x45,0x311,0xe602,0x65,0x311,0xe602,0x49,0x30f,0xe602,0x69,0x30f,0xe602,0x49,0x311,0xe602,0x69,";
"    0x311,0xe602,0x4f,0x30f,0xe602,0x6f,0x30f,0xe602,0x4f,0x311,0xe602,0x6f,0x311,0xe602,0x52,0x30f,";
"    0xe602,0x72,0x30f,0xe602,0x52,0x311,0xe602,0x72,0x311,0xe602,0x55,0x30f,0xe602,0x75,0x30f,0xe602,";
"    0x55,0x311,0xe602,0x75,0x311,0xdc02,0x53,0x326,0xdc02,0x73,0x326,0xdc02,0x54,0x326,0xdc02,0x74,";
"    0x326,0xe602,0x48,0x30c,0xe602,0x68,0x30c,0xd6,0xe643,0x4f,0x308,0x304,0xf6,0xe643,0x6f,0x308,";
"    0x304,0xd5,0xe643,0x4f,0x303,0x304,0xf5,0xe643,0x6f,0x303,0x304,0x22e,0xe643,0x4f,0x307,0x304,";
"    0x22f,0xe643,0x6f,0x307,0x304,0xe602,0x59,0x304,0xe602,0x79,0x304,0xe602,0xa8,0x301,0xe602,0x391,";
"    0x301,0xe602,0x395,0x301,0xe602,0x397,0x301,0xe602,0x399,0x301,0xe602,0x39f,0x301,0xe602,0x3a5,0x301,";
"    0xe602,0x3a9,0x301,0x3ca,0xe643,0x3b9,0x308,0x301,0xe602,0x399,0x308,0xe602,0x3a5,0x308,0xe602,0x3b5,";
"    0x301,0xe602,0x3b9,0x301,0x3cb,0xe643,0x3c5,0x308,0x301,0xe602,0x3bf,0x301,0xe602,0x3c5,0x301,0xe602,";
"    0x3d2,0x301,0xe602,0x3d2,0x308,0xe602,0x415,0x300,0xe602,0x415,0x308,0xe602,0x413,0x301,0xe602,0x406,";
"    0x308,0xe602,0x41a,0x301,0xe602,0x418,0x300,0xe602,0x423,0x306,0xe602,0x418,0x306,0xe602,0x438,0x306,";
"    0xe602,0x435,0x300,0xe602,0x435,0x308,0xe602,0x433,0x301,0xe602,0x456,0x308,0xe602,0x43a,0x301,0xe602,";
"    0x438,0x300,0xe602,0x443,0x306,0xe602,0x474,0x30f,0xe602,0x475,0x30f,0xe602,0x416,0x306,0xe602,0x436,";
"    0x306,0xe602,0x410,0x306,0xe602,0x430,0x306,0xe602,0x410,0x308,0xe602,0x430,0x308,0xe602,0x415,0x306,";
"    0xe602,0x435,0x306,0xe602,0x4d8,0x308,0xe602,0x4d9,0x308,0xe602,0x416,0x308,0xe602,0x436,0x308,0xe602,";
"    0x417,0x308,0xe602,0x437,0x308,0xe602,0x418,0x304,0xe602,0x438,0x304,0xe602,0x418,0x308,0xe602,0x438,";
"    0x308,0xe602,0x41e,0x308,0xe602,0x43e,0x308,0xe602,0x4e8,0x308,0xe602,0x4e9,0x308,0xe602,0x42d,0x308,";
"    0xe602,0x44d,0x308,0xe602,0x423,0x304,0xe602,0x443,0x304,0xe602,0x423,0x308,0xe602,0x443,0x308,0xe602,";
"    0x423,0x30b,0xe602,0x443,0x30b,0xe602,0x427,0x308,0xe602,0x447,0x308,0xe602,0x42b,0x308,0xe602,0x44b,";
"    0x308,0xe602,0x627,0x653,0xe602,0x627,0x654,0xe602,0x648,0x654,0xdc02,0x627,0x655,0xe602,0x64a,0x654,";
"    0xe602,0x6d5,0x654,0xe602,0x6c1,0x654,0xe602,0x6d2,0x654,0x702,0x928,0x93c,0x702,0x930,0x93c,0x702,";
"    0x933,0x93c,2,0x9c7,0x9be,2,0x9c7,0x9d7,2,0xb47,0xb56,2,0xb47,0xb3e,2,0xb47,";
"    0xb57,2,0xb92,0xbd7,2,0xbc6,0xbbe,2,0xbc7,0xbbe,2,0xbc6,0xbd7,0x5b02,0xc46,0xc56,";
"    2,0xcbf,0xcd5,2,0xcc6,0xcd5,2,0xcc6,0xcd6,0xcca,0x43,0xcc6,0xcc2,0xcd5,2,0xd46,";
"    0xd3e,2,0xd47,0xd3e,2,0xd46,0xd57,0x902,0xdd9,0xdca,0xddc,0x943,0xdd9,0xdcf,0xdca,2,";
"    0xdd9,0xddf,2,0x1025,0x102e,2,0x1b05,0x1b35,2,0x1b07,0x1b35,2,0x1b09,0x1b35,2,0x1b0b,";
"    0x1b35,2,0x1b0d,0x1b35,2,0x1b11,0x1b35,2,0x1b3a,0x1b35,2,0x1b3c,0x1b35,2,0x1b3e,0x1b35,";
"    2,0x1b3f,0x1b35,2,0x1b42,0x1b35,0xdc02,0x41,0x325,0xdc02,0x61,0x325,0xe602,0x42,0x307,0xe602,";
"    0x62,0x307,0xdc02,0x42,0x323,0xdc02,0x62,0x323,0xdc02,0x42,0x331,0xdc02,0x62,0x331,0xc7,0xe643,";
"    0x43,0x327,0x301,0xe7,0xe643,0x63,0x327,0x301,0xe602,0x44,0x307,0xe602,0x64,0x307,0xdc02,0x44,";
"    0x323,0xdc02,0x64,0x323,0xdc02,0x44,0x331,0xdc02,0x64,0x331,0xca02,0x44,0x327,0xca02,0x64,0x327,";
"    0xdc02,0x44,0x32d,0xdc02,0x64,0x32d,0x112,0xe643,0x45,0x304,0x300,0x113,0xe643,0x65,0x304,0x300,";
"    0x112,0xe643,0x45,0x304,0x301,0x113,0xe643,0x65,0x304,0x301,0xdc02,0x45,0x32d,0xdc02,0x65,0x32d,";
"    0xdc02,0x45,0x330,0xdc02,0x65,0x330,0x228,0xe643,0x45,0x327,0x306,0x229,0xe643,0x65,0x327,0x306,";
"    0xe602,0x46,0x307,0xe602,0x66,0x307,0xe602,0x47,0x304,0xe602,0x67,0x304,0xe602,0x48,0x307,0xe602,";
"    0x68,0x307,0xdc02,0x48,0x323,0xdc02,0x68,0x323,0xe602,0x48,0x308,0xe602,0x68,0x308,0xca02,0x48,";
"    0x327,0xca02,0x68,0x327,0xdc02,0x48,0x32e,0xdc02,0x68,0x32e,0xdc02,0x49,0x330,0xdc02,0x69,0x330,";
"    0xcf,0xe643,0x49,0x308,0x301,0xef,0xe643,0x69,0x308,0x301,0xe602,0x4b,0x301,0xe602,0x6b,0x301,";
"    0xdc02,0x4b,0x323,0xdc02,0x6b,0x323,0xdc02,0x4b,0x331,0xdc02,0x6b,0x331,0x1e36,0xe643,0x4c,0x323,";
"    0x304,0x1e37,0xe643,0x6c,0x323,0x304,0xdc02,0x4c,0x331,0xdc02,0x6c,0x331,0xdc02,0x4c,0x32d,0xdc02,";
"    0x6c,0x32d,0xe602,0x4d,0x301,0xe602,0x6d,0x301,0xe602,0x4d,0x307,0xe602,0x6d,0x307,0xdc02,0x4d,";
"    0x323,0xdc02,0x6d,0x323,0xe602,0x4e,0x307,0xe602,0x6e,0x307,0xdc02,0x4e,0x323,0xdc02,0x6e,0x323,";
"    0xdc02,0x4e,0x331,0xdc02,0x6e,0x331,0xdc02,0x4e,0x32d,0xdc02,0x6e,0x32d,0xd5,0xe643,0x4f,0x303,";
"    0x301,0xf5,0xe643,0x6f,0x303,0x301,0xd5,0xe643,0x4f,0x303,0x308,0xf5,0xe643,0x6f,0x303,0x308,";
"    0x14c,0xe643,0x4f,0x304,0x300,0x14d,0xe643,0x6f,0x304,0x300,0x14c,0xe643,0x4f,0x304,0x301,0x14d,";
"    0xe643,0x6f,0x304,0x301,0xe602,0x50,0x301,0xe602,0x70,0x301,0xe602,0x50,0x307,0xe602,0x70,0x307,";
"    0xe602,0x52,0x307,0xe602,0x72,0x307,0x1e5a,0xe643,0x52,0x323,0x304,0x1e5b,0xe643,0x72,0x323,0x304,";
"    0xdc02,0x52,0x331,0xdc02,0x72,0x331,0xe602,0x53,0x307,0xe602,0x73,0x307,0x15a,0xe643,0x53,0x301,";
"    0x307,0x15b,0xe643,0x73,0x301,0x307,0x160,0xe643,0x53,0x30c,0x307,0x161,0xe643,0x73,0x30c,0x307,";
"    0x1e62,0xe643,0x53,0x323,0x307,0x1e63,0xe643,0x73,0x323,0x307,0xe602,0x54,0x307,0xe602,0x74,0x307,";
"    0xdc02,0x54,0x323,0xdc02,0x74,0x323,0xdc02,0x54,0x331,0xdc02,0x74,0x331,0xdc02,0x54,0x32d,0xdc02,";
"    0x74,0x32d,0xdc02,0x55,0x324,0xdc02,0x75,0x324,0xdc02,0x55,0x330,0xdc02,0x75,0x330,0xdc02,0x55,";
"    0x32d,0xdc02,0x75,0x32d,0x168,0xe643,0x55,0x303,0x301,0x169,0xe643,0x75,0x303,0x301,0x16a,0xe643,";
"    0x55,0x304,0x308,0x16b,0xe643,0x75,0x304,0x308,0xe602,0x56,0x303,0xe602,0x76,0x303,0xdc02,0x56,";
"    0x323,0xdc02,0x76,0x323,0xe602,0x57,0x300,0xe602,0x77,0x300,0xe602,0x57,0x301,0xe602,0x77,0x301,";
"    0xe602,0x57,0x308,0xe602,0x77,0x308,0xe602,0x57,0x307,0xe602,0x77,0x307,0xdc02,0x57,0x323,0xdc02,";
"    0x77,0x323,0xe602,0x58,0x307,0xe602,0x78,0x307,0xe602,0x58,0x308,0xe602,0x78,0x308,0xe602,0x59,";
"    0x307,0xe602,0x79,0x307,0xe602,0x5a,0x302,0xe602,0x7a,0x302,0xdc02,0x5a,0x323,0xdc02,0x7a,0x323,";
"    0xdc02,0x5a,0x331,0xdc02,0x7a,0x331,0xdc02,0x68,0x331,0xe602,0x74,0x308,0xe602,0x77,0x30a,0xe602,";
"    0x79,0x30a,0xe602,0x17f,0x307,0xe602,0x41,0x309,0xe602,0x61,0x309,0xc2,0xe643,0x41,0x302,0x301,";
"    0xe2,0xe643,0x61,0x302,0x301,0xc2,0xe643,0x41,0x302,0x300,0xe2,0xe643,0x61,0x302,0x300,0xc2,";
"    0xe643,0x41,0x302,0x309,0xe2,0xe643,0x61,0x302,0x309,0xc2,0xe643,0x41,0x302,0x303,0xe2,0xe643,";
"    0x61,0x302,0x303,0x1ea0,0xe643,0x41,0x323,0x302,0x1ea1,0xe643,0x61,0x323,0x302,0x102,0xe643,0x41,";
"    0x306,0x301,0x103,0xe643,0x61,0x306,0x301,0x102,0xe643,0x41,0x306,0x300,0x103,0xe643,0x61,0x306,";
"    0x300,0x102,0xe643,0x41,0x306,0x309,0x103,0xe643,0x61,0x306,0x309,0x102,0xe643,0x41,0x306,0x303,";
"    0x103,0xe643,0x61,0x306,0x303,0x1ea0,0xe643,0x41,0x323,0x306,0x1ea1,0xe643,0x61,0x323,0x306,0xe602,";
"    0x45,0x309,0xe602,0x65,0x309,0xe602,0x45,0x303,0xe602,0x65,0x303,0xca,0xe643,0x45,0x302,0x301,";
"    0xea,0xe643,0x65,0x302,0x301,0xca,0xe643,0x45,0x302,0x300,0xea,0xe643,0x65,0x302,0x300,0xca,";
"    0xe643,0x45,0x302,0x309,0xea,0xe643,0x65,0x302,0x309,0xca,0xe643,0x45,0x302,0x303,0xea,0xe643,";
"    0x65,0x302,0x303,0x1eb8,0xe643,0x45,0x323,0x302,0x1eb9,0xe643,0x65,0x323,0x302,0xe602,0x49,0x309,";
"    0xe602,0x69,0x309,0xdc02,0x49,0x323,0xdc02,0x69,0x323,0xe602,0x4f,0x309,0xe602,0x6f,0x309,0xd4,";
"    0xe643,0x4f,0x302,0x301,0xf4,0xe643,0x6f,0x302,0x301,0xd4,0xe643,0x4f,0x302,0x300,0xf4,0xe643,";
"    0x6f,0x302,0x300,0xd4,0xe643,0x4f,0x302,0x309,0xf4,0xe643,0x6f,0x302,0x309,0xd4,0xe643,0x4f,";
"    0x302,0x303,0xf4,0xe643,0x6f,0x302,0x303,0x1ecc,0xe643,0x4f,0x323,0x302,0x1ecd,0xe643,0x6f,0x323,";
"    0x302,0x1a0,0xe643,0x4f,0x31b,0x301,0x1a1,0xe643,0x6f,0x31b,0x301,0x1a0,0xe643,0x4f,0x31b,0x300,";
"    0x1a1,0xe643,0x6f,0x31b,0x300,0x1a0,0xe643,0x4f,0x31b,0x309,0x1a1,0xe643,0x6f,0x31b,0x309,0x1a0,";
"    0xe643,0x4f,0x31b,0x303,0x1a1,0xe643,0x6f,0x31b,0x303,0x1a0,0xdc43,0x4f,0x31b,0x323,0x1a1,0xdc43,";
"    0x6f,0x31b,0x323,0xdc02,0x55,0x323,0xdc02,0x75,0x323,0xe602,0x55,0x309,0xe602,0x75,0x309,0x1af,";
"    0xe643,0x55,0x31b,0x301,0x1b0,0xe643,0x75,0x31b,0x301,0x1af,0xe643,0x55,0x31b,0x300,0x1b0,0xe643,";
"    0x75,0x31b,0x300,0x1af,0xe643,0x55,0x31b,0x309,0x1b0,0xe643,0x75,0x31b,0x309,0x1af,0xe643,0x55,";
"    0x31b,0x303,0x1b0,0xe643,0x75,0x31b,0x303,0x1af,0xdc43,0x55,0x31b,0x323,0x1b0,0xdc43,0x75,0x31b,";
"    0x323,0xe602,0x59,0x300,0xe602,0x79,0x300,0xdc02,0x59,0x323,0xdc02,0x79,0x323,0xe602,0x59,0x309,";
"    0xe602,0x79,0x309,0xe602,0x59,0x303,0xe602,0x79,0x303,0x1f10,0xe643,0x3b5,0x313,0x300,0x1f11,0xe643,";
"    0x3b5,0x314,0x300,0x1f10,0xe643,0x3b5,0x313,0x301,0x1f11,0xe643,0x3b5,0x314,0x301,0x1f18,0xe643,0x395,";
"    0x313,0x300,0x1f19,0xe643,0x395,0x314,0x300,0x1f18,0xe643,0x395,0x313,0x301,0x1f19,0xe643,0x395,0x314,";
"    0x301,0x1f30,0xe643,0x3b9,0x313,0x300,0x1f31,0xe643,0x3b9,0x314,0x300,0x1f30,0xe643,0x3b9,0x313,0x301,";
"    0x1f31,0xe643,0x3b9,0x314,0x301,0x1f30,0xe643,0x3b9,0x313,0x342,0x1f31,0xe643,0x3b9,0x314,0x342,0x1f38,";
"    0xe643,0x399,0x313,0x300,0x1f39,0xe643,0x399,0x314,0x300,0x1f38,0xe643,0x399,0x313,0x301,0x1f39,0xe643,";
"    0x399,0x314,0x301,0x1f38,0xe643,0x399,0x313,0x342,0x1f39,0xe643,0x399,0x314,0x342,0x1f40,0xe643,0x3bf,";
"    0x313,0x300,0x1f41,0xe643,0x3bf,0x314,0x300,0x1f40,0xe643,0x3bf,0x313,0x301,0x1f41,0xe643,0x3bf,0x314,";
"    0x301,0x1f48,0xe643,0x39f,0x313,0x300,0x1f49,0xe643,0x39f,0x314,0x300,0x1f48,0xe643,0x39f,0x313,0x301,";
"    0x1f49,0xe643,0x39f,0x314,0x301,0x1f50,0xe643,0x3c5,0x313,0x300,0x1f51,0xe643,0x3c5,0x314,0x300,0x1f50,";
"    0xe643,0x3c5,0x313,0x301,0x1f51,0xe643,0x3c5,0x314,0x301,0x1f50,0xe643,0x3c5,0x313,0x342,0x1f51,0xe643,";
"    0x3c5,0x314,0x342,0x1f59,0xe643,0x3a5,0x314,0x300,0x1f59,0xe643,0x3a5,0x314,0x301,0x1f59,0xe643,0x3a5,";
"    0x314,0x342,0xe602,0x3b5,0x300,0xe602,0x3b9,0x300,0xe602,0x3bf,0x300,0xe602,0x3c5,0x300,0x1f00,0xf043,";
"    0x3b1,0x313,0x345,0x1f01,0xf043,0x3b1,0x314,0x345,0x1f02,0x345,2,0xf044,0x3b1,0x313,0x300,0x345,";
"    0x1f03,0x345,2,0xf044,0x3b1,0x314,0x300,0x345,0x1f04,0x345,2,0xf044,0x3b1,0x313,0x301,0x345,";
"    0x1f05,0x345,2,0xf044,0x3b1,0x314,0x301,0x345,0x1f06,0x345,2,0xf044,0x3b1,0x313,0x342,0x345,";
"    0x1f07,0x345,2,0xf044,0x3b1,0x314,0x342,0x345,0x1f08,0xf043,0x391,0x313,0x345,0x1f09,0xf043,0x391,";
"    0x314,0x345,0x1f0a,0x345,2,0xf044,0x391,0x313,0x300,0x345,0x1f0b,0x345,2,0xf044,0x391,0x314,";
"    0x300,0x345,0x1f0c,0x345,2,0xf044,0x391,0x313,0x301,0x345,0x1f0d,0x345,2,0xf044,0x391,0x314,";
"    0x301,0x345,0x1f0e,0x345,2,0xf044,0x391,0x313,0x342,0x345,0x1f0f,0x345,2,0xf044,0x391,0x314,";
"    0x342,0x345,0x1f20,0xf043,0x3b7,0x313,0x345,0x1f21,0xf043,0x3b7,0x314,0x345,0x1f22,0x345,2,0xf044,";
"    0x3b7,0x313,0x300,0x345,0x1f23,0x345,2,0xf044,0x3b7,0x314,0x300,0x345,0x1f24,0x345,2,0xf044,";
"    0x3b7,0x313,0x301,0x345,0x1f25,0x345,2,0xf044,0x3b7,0x314,0x301,0x345,0x1f26,0x345,2,0xf044,";
"    0x3b7,0x313,0x342,0x345,0x1f27,0x345,2,0xf044,0x3b7,0x314,0x342,0x345,0x1f28,0xf043,0x397,0x313,";
"    0x345,0x1f29,0xf043,0x397,0x314,0x345,0x1f2a,0x345,2,0xf044,0x397,0x313,0x300,0x345,0x1f2b,0x345,";
"    2,0xf044,0x397,0x314,0x300,0x345,0x1f2c,0x345,2,0xf044,0x397,0x313,0x301,0x345,0x1f2d,0x345,";
"    2,0xf044,0x397,0x314,0x301,0x345,0x1f2e,0x345,2,0xf044,0x397,0x313,0x342,0x345,0x1f2f,0x345,";
"    2,0xf044,0x397,0x314,0x342,0x345,0x1f60,0xf043,0x3c9,0x313,0x345,0x1f61,0xf043,0x3c9,0x314,0x345,";
"    0x1f62,0x345,2,0xf044,0x3c9,0x313,0x300,0x345,0x1f63,0x345,2,0xf044,0x3c9,0x314,0x300,0x345,";
"    0x1f64,0x345,2,0xf044,0x3c9,0x313,0x301,0x345,0x1f65,0x345,2,0xf044,0x3c9,0x314,0x301,0x345,";
"    0x1f66,0x345,2,0xf044,0x3c9,0x313,0x342,0x345,0x1f67,0x345,2,0xf044,0x3c9,0x314,0x342,0x345,";
"    0x1f68,0xf043,0x3a9,0x313,0x345,0x1f69,0xf043,0x3a9,0x314,0x345,0x1f6a,0x345,2,0xf044,0x3a9,0x313,";
"    0x300,0x345,0x1f6b,0x345,2,0xf044,0x3a9,0x314,0x300,0x345,0x1f6c,0x345,2,0xf044,0x3a9,0x313,";
"    0x301,0x345,0x1f6d,0x345,2,0xf044,0x3a9,0x314,0x301,0x345,0x1f6e,0x345,2,0xf044,0x3a9,0x313,";
"    0x342,0x345,0x1f6f,0x345,2,0xf044,0x3a9,0x314,0x342,0x345,0xe602,0x3b1,0x306,0xe602,0x3b1,0x304,";
"    0x1f70,0xf043,0x3b1,0x300,0x345,0xf002,0x3b1,0x345,0x3ac,0xf043,0x3b1,0x301,0x345,0x1fb6,0xf043,0x3b1,";
"    0x342,0x345,0xe602,0x391,0x306,0xe602,0x391,0x304,0xe602,0x391,0x300,0xf002,0x391,0x345,0xe602,0xa8,";
"    0x342,0x1f74,0xf043,0x3b7,0x300,0x345,0xf002,0x3b7,0x345,0x3ae,0xf043,0x3b7,0x301,0x345,0x1fc6,0xf043,";
"    0x3b7,0x342,0x345,0xe602,0x395,0x300,0xe602,0x397,0x300,0xf002,0x397,0x345,0xe602,0x1fbf,0x300,0xe602,";
"    0x1fbf,0x301,0xe602,0x1fbf,0x342,0xe602,0x3b9,0x306,0xe602,0x3b9,0x304,0x3ca,0xe643,0x3b9,0x308,0x300,";
"    0xe602,0x3b9,0x342,0x3ca,0xe643,0x3b9,0x308,0x342,0xe602,0x399,0x306,0xe602,0x399,0x304,0xe602,0x399,";
"    0x300,0xe602,0x1ffe,0x300,0xe602,0x1ffe,0x301,0xe602,0x1ffe,0x342,0xe602,0x3c5,0x306,0xe602,0x3c5,0x304,";
"    0x3cb,0xe643,0x3c5,0x308,0x300,0xe602,0x3c1,0x313,0xe602,0x3c1,0x314,0xe602,0x3c5,0x342,0x3cb,0xe643,";
"    0x3c5,0x308,0x342,0xe602,0x3a5,0x306,0xe602,0x3a5,0x304,0xe602,0x3a5,0x300,0xe602,0x3a1,0x314,0xe602,";
"    0xa8,0x300,0x1f7c,0xf043,0x3c9,0x300,0x345,0xf002,0x3c9,0x345,0x3ce,0xf043,0x3c9,0x301,0x345,0x1ff6,";
"    0xf043,0x3c9,0x342,0x345,0xe602,0x39f,0x300,0xe602,0x3a9,0x300,0xf002,0x3a9,0x345,0x102,0x2190,0x338,";
"    0x102,0x2192,0x338,0x102,0x2194,0x338,0x102,0x21d0,0x338,0x102,0x21d4,0x338,0x102,0x21d2,0x338,0x102,";
"    0x2203,0x338,0x102,0x2208,0x338,0x102,0x220b,0x338,0x102,0x2223,0x338,0x102,0x2225,0x338,0x102,0x223c,";
"    0x338,0x102,0x2243,0x338,0x102,0x2245,0x338,0x102,0x2248,0x338,0x102,0x3d,0x338,0x102,0x2261,0x338,";
"    0x102,0x224d,0x338,0x102,0x3c,0x338,0x102,0x3e,0x338,0x102,0x2264,0x338,0x102,0x2265,0x338,0x102,";
"    0x2272,0x338,0x102,0x2273,0x338,0x102,0x2276,0x338,0x102,0x2277,0x338,0x102,0x227a,0x338,0x102,0x227b,";
"    0x338,0x102,0x2282,0x338,0x102,0x2283,0x338,0x102,0x2286,0x338,0x102,0x2287,0x338,0x102,0x22a2,0x338,";
"    0x102,0x22a8,0x338,0x102,0x22a9,0x338,0x102,0x22ab,0x338,0x102,0x227c,0x338,0x102,0x227d,0x338,0x102,";
"    0x2291,0x338,0x102,0x2292,0x338,0x102,0x22b2,0x338,0x102,0x22b3,0x338,0x102,0x22b4,0x338,0x102,0x22b5,";
"    0x338,0x802,0x304b,0x3099,0x802,0x304d,0x3099,0x802,0x304f,0x3099,0x802,0x3051,0x3099,0x802,0x3053,0x3099,";
"    0x802,0x3055,0x3099,0x802,0x3057,0x3099,0x802,0x3059,0x3099,0x802,0x305b,0x3099,0x802,0x305d,0x3099,0x802,";
"    0x305f,0x3099,0x802,0x3061,0x3099,0x802,0x3064,0x3099,0x802,0x3066,0x3099,0x802,0x3068,0x3099,0x802,0x306f,";
"    0x3099,0x802,0x306f,0x309a,0x802,0x3072,0x3099,0x802,0x3072,0x309a,0x802,0x3075,0x3099,0x802,0x3075,0x309a,";
"    0x802,0x3078,0x3099,0x802,0x3078,0x309a,0x802,0x307b,0x3099,0x802,0x307b,0x309a,0x802,0x3046,0x3099,0x802,";
"    0x309d,0x3099,0x802,0x30ab,0x3099,0x802,0x30ad,0x3099,0x802,0x30af,0x3099,0x802,0x30b1,0x3099,0x802,0x30b3,";
"    0x3099,0x802,0x30b5,0x3099,0x802,0x30b7,0x3099,0x802,0x30b9,0x3099,0x802,0x30bb,0x3099,0x802,0x30bd,0x3099,";
"    0x802,0x30bf,0x3099,0x802,0x30c1,0x3099,0x802,0x30c4,0x3099,0x802,0x30c6,0x3099,0x802,0x30c8,0x3099,0x802,";
"    0x30cf,0x3099,0x802,0x30cf,0x309a,0x802,0x30d2,0x3099,0x802,0x30d2,0x309a,0x802,0x30d5,0x3099,0x802,0x30d5,";
"    0x309a,0x802,0x30d8,0x3099,0x802,0x30d8,0x309a,0x802,0x30db,0x3099,0x802,0x30db,0x309a,0x802,0x30a6,0x3099,";
"    0x802,0x30ef,0x3099,0x802,0x30f0,0x3099,0x802,0x30f1,0x3099,0x802,0x30f2,0x3099,0x802,0x30fd,0x3099,0x704,";
"    0xd804,0xdc99,0xd804,0xdcba,0x704,0xd804,0xdc9b,0xd804,0xdcba,0x704,0xd804,0xdca5,0xd804,0xdcba,4,0xd804,";
"    0xdd31,0xd804,0xdd27,4,0xd804,0xdd32,0xd804,0xdd27,4,0xd804,0xdf47,0xd804,0xdf3e,4,0xd804,0xdf47,";
"    0xd804,0xdf57,4,0xd805,0xdcb9,0xd805,0xdcba,4,0xd805,0xdcb9,0xd805,0xdcb0,4,0xd805,0xdcb9,0xd805,";
"    0xdcbd,4,0xd805,0xddb8,0xd805,0xddaf,4,0xd805,0xddb9,0xd805,0xddaf,4,0xd806,0xdd35,0xd806,0xdd30,";
"    1,0x2b9,1,0x3b,1,0xb7,0x702,0x915,0x93c,0x702,0x916,0x93c,0x702,0x917,0x93c,0x702,";
"    0x91c,0x93c,0x702,0x921,0x93c,0x702,0x922,0x93c,0x702,0x92b,0x93c,0x702,0x92f,0x93c,0x702,0x9a1,";
"    0x9bc,0x702,0x9a2,0x9bc,0x702,0x9af,0x9bc,0x702,0xa32,0xa3c,0x702,0xa38,0xa3c,0x702,0xa16,0xa3c,";
"    0x702,0xa17,0xa3c,0x702,0xa1c,0xa3c,0x702,0xa2b,0xa3c,0x702,0xb21,0xb3c,0x702,0xb22,0xb3c,2,";
"    0xf42,0xfb7,2,0xf4c,0xfb7,2,0xf51,0xfb7,2,0xf56,0xfb7,2,0xf5b,0xfb7,2,0xf40,";
"    0xfb5,0x8202,0xfb2,0xf80,0x8202,0xfb3,0xf80,2,0xf92,0xfb7,2,0xf9c,0xfb7,2,0xfa1,0xfb7,";
"    2,0xfa6,0xfb7,2,0xfab,0xfb7,2,0xf90,0xfb5,1,0x3b9,1,0x60,1,0xb4,1,";
"    0x3a9,1,0x4b,1,0x3008,1,0x3009,0x102,0x2add,0x338,1,0x8c48,1,0x66f4,1,0x8eca,";
"    1,0x8cc8,1,0x6ed1,1,0x4e32,1,0x53e5,1,0x9f9c,1,0x5951,1,0x91d1,1,0x5587,";
"    1,0x5948,1,0x61f6,1,0x7669,1,0x7f85,1,0x863f,1,0x87ba,1,0x88f8,1,0x908f,";
"    1,0x6a02,1,0x6d1b,1,0x70d9,1,0x73de,1,0x843d,1,0x916a,1,0x99f1,1,0x4e82,";
"    1,0x5375,1,0x6b04,1,0x721b,1,0x862d,1,0x9e1e,1,0x5d50,1,0x6feb,1,0x85cd,";
"    1,0x8964,1,0x62c9,1,0x81d8,1,0x881f,1,0x5eca,1,0x6717,1,0x6d6a,1,0x72fc,";
"    1,0x90ce,1,0x4f86,1,0x51b7,1,0x52de,1,0x64c4,1,0x6ad3,1,0x7210,1,0x76e7,";
"    1,0x8001,1,0x8606,1,0x865c,1,0x8def,1,0x9732,1,0x9b6f,1,0x9dfa,1,0x788c,";
"    1,0x797f,1,0x7da0,1,0x83c9,1,0x9304,1,0x9e7f,1,0x8ad6,1,0x58df,1,0x5f04,";
"    1,0x7c60,1,0x807e,1,0x7262,1,0x78ca,1,0x8cc2,1,0x96f7,1,0x58d8,1,0x5c62,";
"    1,0x6a13,1,0x6dda,1,0x6f0f,1,0x7d2f,1,0x7e37,1,0x964b,1,0x52d2,1,0x808b,";
"    1,0x51dc,1,0x51cc,1,0x7a1c,1,0x7dbe,1,0x83f1,1,0x9675,1,0x8b80,1,0x62cf,";
"    1,0x8afe,1,0x4e39,1,0x5be7,1,0x6012,1,0x7387,1,0x7570,1,0x5317,1,0x78fb,";
"    1,0x4fbf,1,0x5fa9,1,0x4e0d,1,0x6ccc,1,0x6578,1,0x7d22,1,0x53c3,1,0x585e,";
"    1,0x7701,1,0x8449,1,0x8aaa,1,0x6bba,1,0x8fb0,1,0x6c88,1,0x62fe,1,0x82e5,";
"    1,0x63a0,1,0x7565,1,0x4eae,1,0x5169,1,0x51c9,1,0x6881,1,0x7ce7,1,0x826f,";
"    1,0x8ad2,1,0x91cf,1,0x52f5,1,0x5442,1,0x5973,1,0x5eec,1,0x65c5,1,0x6ffe,";
"    1,0x792a,1,0x95ad,1,0x9a6a,1,0x9e97,1,0x9ece,1,0x529b,1,0x66c6,1,0x6b77,";
"    1,0x8f62,1,0x5e74,1,0x6190,1,0x6200,1,0x649a,1,0x6f23,1,0x7149,1,0x7489,";
"    1,0x79ca,1,0x7df4,1,0x806f,1,0x8f26,1,0x84ee,1,0x9023,1,0x934a,1,0x5217,";
"    1,0x52a3,1,0x54bd,1,0x70c8,1,0x88c2,1,0x5ec9,1,0x5ff5,1,0x637b,1,0x6bae,";
"    1,0x7c3e,1,0x7375,1,0x4ee4,1,0x56f9,1,0x5dba,1,0x601c,1,0x73b2,1,0x7469,";
"    1,0x7f9a,1,0x8046,1,0x9234,1,0x96f6,1,0x9748,1,0x9818,1,0x4f8b,1,0x79ae,";
"    1,0x91b4,1,0x96b8,1,0x60e1,1,0x4e86,1,0x50da,1,0x5bee,1,0x5c3f,1,0x6599,";
"    1,0x71ce,1,0x7642,1,0x84fc,1,0x907c,1,0x9f8d,1,0x6688,1,0x962e,1,0x5289,";
"    1,0x677b,1,0x67f3,1,0x6d41,1,0x6e9c,1,0x7409,1,0x7559,1,0x786b,1,0x7d10,";
"    1,0x985e,1,0x516d,1,0x622e,1,0x9678,1,0x502b,1,0x5d19,1,0x6dea,1,0x8f2a,";
"    1,0x5f8b,1,0x6144,1,0x6817,1,0x9686,1,0x5229,1,0x540f,1,0x5c65,1,0x6613,";
"    1,0x674e,1,0x68a8,1,0x6ce5,1,0x7406,1,0x75e2,1,0x7f79,1,0x88cf,1,0x88e1,";
"    1,0x91cc,1,0x96e2,1,0x533f,1,0x6eba,1,0x541d,1,0x71d0,1,0x7498,1,0x85fa,";
"    1,0x96a3,1,0x9c57,1,0x9e9f,1,0x6797,1,0x6dcb,1,0x81e8,1,0x7acb,1,0x7b20,";
"    1,0x7c92,1,0x72c0,1,0x7099,1,0x8b58,1,0x4ec0,1,0x8336,1,0x523a,1,0x5207,";
"    1,0x5ea6,1,0x62d3,1,0x7cd6,1,0x5b85,1,0x6d1e,1,0x66b4,1,0x8f3b,1,0x884c,";
"    1,0x964d,1,0x898b,1,0x5ed3,1,0x5140,1,0x55c0,1,0x585a,1,0x6674,1,0x51de,";
"    1,0x732a,1,0x76ca,1,0x793c,1,0x795e,1,0x7965,1,0x798f,1,0x9756,1,0x7cbe,";
"    1,0x7fbd,1,0x8612,1,0x8af8,1,0x9038,1,0x90fd,1,0x98ef,1,0x98fc,1,0x9928,";
"    1,0x9db4,1,0x90de,1,0x96b7,1,0x4fae,1,0x50e7,1,0x514d,1,0x52c9,1,0x52e4,";
"    1,0x5351,1,0x559d,1,0x5606,1,0x5668,1,0x5840,1,0x58a8,1,0x5c64,1,0x5c6e,";
"    1,0x6094,1,0x6168,1,0x618e,1,0x61f2,1,0x654f,1,0x65e2,1,0x6691,1,0x6885,";
"    1,0x6d77,1,0x6e1a,1,0x6f22,1,0x716e,1,0x722b,1,0x7422,1,0x7891,1,0x793e,";
"    1,0x7949,1,0x7948,1,0x7950,1,0x7956,1,0x795d,1,0x798d,1,0x798e,1,0x7a40,";
"    1,0x7a81,1,0x7bc0,1,0x7e09,1,0x7e41,1,0x7f72,1,0x8005,1,0x81ed,1,0x8279,";
"    1,0x8457,1,0x8910,1,0x8996,1,0x8b01,1,0x8b39,1,0x8cd3,1,0x8d08,1,0x8fb6,";
"    1,0x96e3,1,0x97ff,1,0x983b,1,0x6075,2,0xd850,0xdeee,1,0x8218,1,0x4e26,1,";
"    0x51b5,1,0x5168,1,0x4f80,1,0x5145,1,0x5180,1,0x52c7,1,0x52fa,1,0x5555,1,";
"    0x5599,1,0x55e2,1,0x58b3,1,0x5944,1,0x5954,1,0x5a62,1,0x5b28,1,0x5ed2,1,";
"    0x5ed9,1,0x5f69,1,0x5fad,1,0x60d8,1,0x614e,1,0x6108,1,0x6160,1,0x6234,1,";
"    0x63c4,1,0x641c,1,0x6452,1,0x6556,1,0x671b,1,0x6756,1,0x6b79,1,0x6edb,1,";
"    0x6ecb,1,0x701e,1,0x77a7,1,0x7235,1,0x72af,1,0x7471,1,0x7506,1,0x753b,1,";
"    0x761d,1,0x761f,1,0x76db,1,0x76f4,1,0x774a,1,0x7740,1,0x78cc,1,0x7ab1,1,";
"    0x7c7b,1,0x7d5b,1,0x7f3e,1,0x8352,1,0x83ef,1,0x8779,1,0x8941,1,0x8986,1,";
"    0x8abf,1,0x8acb,1,0x8aed,1,0x8b8a,1,0x8f38,1,0x9072,1,0x9199,1,0x9276,1,";
"    0x967c,1,0x97db,1,0x980b,1,0x9b12,2,0xd84a,0xdc4a,2,0xd84a,0xdc44,2,0xd84c,0xdfd5,";
"    1,0x3b9d,1,0x4018,1,0x4039,2,0xd854,0xde49,2,0xd857,0xdcd0,2,0xd85f,0xded3,1,";
"    0x9f43,1,0x9f8e,0xe02,0x5d9,0x5b4,0x1102,0x5f2,0x5b7,0x1802,0x5e9,0x5c1,0x1902,0x5e9,0x5c2,0xfb49,";
"    0x1843,0x5e9,0x5bc,0x5c1,0xfb49,0x1943,0x5e9,0x5bc,0x5c2,0x1102,0x5d0,0x5b7,0x1202,0x5d0,0x5b8,0x1502,";
"    0x5d0,0x5bc,0x1502,0x5d1,0x5bc,0x1502,0x5d2,0x5bc,0x1502,0x5d3,0x5bc,0x1502,0x5d4,0x5bc,0x1502,0x5d5,";
"    0x5bc,0x1502,0x5d6,0x5bc,0x1502,0x5d8,0x5bc,0x1502,0x5d9,0x5bc,0x1502,0x5da,0x5bc,0x1502,0x5db,0x5bc,";
"    0x1502,0x5dc,0x5bc,0x1502,0x5de,0x5bc,0x1502,0x5e0,0x5bc,0x1502,0x5e1,0x5bc,0x1502,0x5e3,0x5bc,0x1502,";
"    0x5e4,0x5bc,0x1502,0x5e6,0x5bc,0x1502,0x5e7,0x5bc,0x1502,0x5e8,0x5bc,0x1502,0x5e9,0x5bc,0x1502,0x5ea,";
"    0x5bc,0x1302,0x5d5,0x5b9,0x1702,0x5d1,0x5bf,0x1702,0x5db,0x5bf,0x1702,0x5e4,0x5bf,0xd804,0xd834,0xdd57,";
"    0xd834,0xdd65,0xd804,0xd834,0xdd58,0xd834,0xdd65,0xd834,0xdd5f,0xd834,0xdd6e,4,0xd846,0xd834,0xdd58,0xd834,";
"    0xdd65,0xd834,0xdd6e,0xd834,0xdd5f,0xd834,0xdd6f,4,0xd846,0xd834,0xdd58,0xd834,0xdd65,0xd834,0xdd6f,0xd834,";
"    0xdd5f,0xd834,0xdd70,4,0xd846,0xd834,0xdd58,0xd834,0xdd65,0xd834,0xdd70,0xd834,0xdd5f,0xd834,0xdd71,4,";
"    0xd846,0xd834,0xdd58,0xd834,0xdd65,0xd834,0xdd71,0xd834,0xdd5f,0xd834,0xdd72,4,0xd846,0xd834,0xdd58,0xd834,";
"    0xdd65,0xd834,0xdd72,0xd804,0xd834,0xddb9,0xd834,0xdd65,0xd804,0xd834,0xddba,0xd834,0xdd65,0xd834,0xddbb,0xd834,";
"    0xdd6e,4,0xd846,0xd834,0xddb9,0xd834,0xdd65,0xd834,0xdd6e,0xd834,0xddbc,0xd834,0xdd6e,4,0xd846,0xd834,";
"    0xddba,0xd834,0xdd65,0xd834,0xdd6e,0xd834,0xddbb,0xd834,0xdd6f,4,0xd846,0xd834,0xddb9,0xd834,0xdd65,0xd834,";
"    0xdd6f,0xd834,0xddbc,0xd834,0xdd6f,4,0xd846,0xd834,0xddba,0xd834,0xdd65,0xd834,0xdd6f,1,0x4e3d,1,";
"    0x4e38,1,0x4e41,2,0xd840,0xdd22,1,0x4f60,1,0x4fbb,1,0x5002,1,0x507a,1,0x5099,";
"    1,0x50cf,1,0x349e,2,0xd841,0xde3a,1,0x5154,1,0x5164,1,0x5177,2,0xd841,0xdd1c,";
"    1,0x34b9,1,0x5167,1,0x518d,2,0xd841,0xdd4b,1,0x5197,1,0x51a4,1,0x4ecc,1,";
"    0x51ac,2,0xd864,0xdddf,1,0x51f5,1,0x5203,1,0x34df,1,0x523b,1,0x5246,1,0x5272,";
"    1,0x5277,1,0x3515,1,0x5305,1,0x5306,1,0x5349,1,0x535a,1,0x5373,1,0x537d,";
"    1,0x537f,2,0xd842,0xde2c,1,0x7070,1,0x53ca,1,0x53df,2,0xd842,0xdf63,1,0x53eb,";
"    1,0x53f1,1,0x5406,1,0x549e,1,0x5438,1,0x5448,1,0x5468,1,0x54a2,1,0x54f6,";
"    1,0x5510,1,0x5553,1,0x5563,1,0x5584,1,0x55ab,1,0x55b3,1,0x55c2,1,0x5716,";
"    1,0x5717,1,0x5651,1,0x5674,1,0x58ee,1,0x57ce,1,0x57f4,1,0x580d,1,0x578b,";
"    1,0x5832,1,0x5831,1,0x58ac,2,0xd845,0xdce4,1,0x58f2,1,0x58f7,1,0x5906,1,";
"    0x591a,1,0x5922,1,0x5962,2,0xd845,0xdea8,2,0xd845,0xdeea,1,0x59ec,1,0x5a1b,1,";
"    0x5a27,1,0x59d8,1,0x5a66,1,0x36ee,1,0x36fc,1,0x5b08,1,0x5b3e,2,0xd846,0xddc8,";
"    1,0x5bc3,1,0x5bd8,1,0x5bf3,2,0xd846,0xdf18,1,0x5bff,1,0x5c06,1,0x5f53,1,";
"    0x5c22,1,0x3781,1,0x5c60,1,0x5cc0,1,0x5c8d,2,0xd847,0xdde4,1,0x5d43,2,0xd847,";
"    0xdde6,1,0x5d6e,1,0x5d6b,1,0x5d7c,1,0x5de1,1,0x5de2,1,0x382f,1,0x5dfd,1,";
"    0x5e28,1,0x5e3d,1,0x5e69,1,0x3862,2,0xd848,0xdd83,1,0x387c,1,0x5eb0,1,0x5eb3,";
"    1,0x5eb6,2,0xd868,0xdf92,1,0x5efe,2,0xd848,0xdf31,1,0x8201,1,0x5f22,1,0x38c7,";
"    2,0xd84c,0xdeb8,2,0xd858,0xddda,1,0x5f62,1,0x5f6b,1,0x38e3,1,0x5f9a,1,0x5fcd,";
"    1,0x5fd7,1,0x5ff9,1,0x6081,1,0x393a,1,0x391c,2,0xd849,0xded4,1,0x60c7,1,";
"    0x6148,1,0x614c,1,0x617a,1,0x61b2,1,0x61a4,1,0x61af,1,0x61de,1,0x6210,1,";
"    0x621b,1,0x625d,1,0x62b1,1,0x62d4,1,0x6350,2,0xd84a,0xdf0c,1,0x633d,1,0x62fc,";
"    1,0x6368,1,0x6383,1,0x63e4,2,0xd84a,0xdff1,1,0x6422,1,0x63c5,1,0x63a9,1,";
"    0x3a2e,1,0x6469,1,0x647e,1,0x649d,1,0x6477,1,0x3a6c,1,0x656c,2,0xd84c,0xdc0a,";
"    1,0x65e3,1,0x66f8,1,0x6649,1,0x3b19,1,0x3b08,1,0x3ae4,1,0x5192,1,0x5195,";
"    1,0x6700,1,0x669c,1,0x80ad,1,0x43d9,1,0x6721,1,0x675e,1,0x6753,2,0xd84c,";
"    0xdfc3,1,0x3b49,1,0x67fa,1,0x6785,1,0x6852,2,0xd84d,0xdc6d,1,0x688e,1,0x681f,";
"    1,0x6914,1,0x6942,1,0x69a3,1,0x69ea,1,0x6aa8,2,0xd84d,0xdea3,1,0x6adb,1,";
"    0x3c18,1,0x6b21,2,0xd84e,0xdca7,1,0x6b54,1,0x3c4e,1,0x6b72,1,0x6b9f,1,0x6bbb,";
"    2,0xd84e,0xde8d,2,0xd847,0xdd0b,2,0xd84e,0xdefa,1,0x6c4e,2,0xd84f,0xdcbc,1,0x6cbf,";
"    1,0x6ccd,1,0x6c67,1,0x6d16,1,0x6d3e,1,0x6d69,1,0x6d78,1,0x6d85,2,0xd84f,";
"    0xdd1e,1,0x6d34,1,0x6e2f,1,0x6e6e,1,0x3d33,1,0x6ec7,2,0xd84f,0xded1,1,0x6df9,";
"    1,0x6f6e,2,0xd84f,0xdf5e,2,0xd84f,0xdf8e,1,0x6fc6,1,0x7039,1,0x701b,1,0x3d96,";
"    1,0x704a,1,0x707d,1,0x7077,1,0x70ad,2,0xd841,0xdd25,1,0x7145,2,0xd850,0xde63,";
"    1,0x719c,2,0xd850,0xdfab,1,0x7228,1,0x7250,2,0xd851,0xde08,1,0x7280,1,0x7295,";
"    2,0xd851,0xdf35,2,0xd852,0xdc14,1,0x737a,1,0x738b,1,0x3eac,1,0x73a5,1,0x3eb8,";
"    1,0x7447,1,0x745c,1,0x7485,1,0x74ca,1,0x3f1b,1,0x7524,2,0xd853,0xdc36,1,";
"    0x753e,2,0xd853,0xdc92,2,0xd848,0xdd9f,1,0x7610,2,0xd853,0xdfa1,2,0xd853,0xdfb8,2,";
"    0xd854,0xdc44,1,0x3ffc,1,0x4008,2,0xd854,0xdcf3,2,0xd854,0xdcf2,2,0xd854,0xdd19,2,";
"    0xd854,0xdd33,1,0x771e,1,0x771f,1,0x778b,1,0x4046,1,0x4096,2,0xd855,0xdc1d,1,";
"    0x784e,1,0x40e3,2,0xd855,0xde26,2,0xd855,0xde9a,2,0xd855,0xdec5,1,0x79eb,1,0x412f,";
"    1,0x7a4a,1,0x7a4f,2,0xd856,0xdd7c,2,0xd856,0xdea7,1,0x7aee,1,0x4202,2,0xd856,";
"    0xdfab,1,0x7bc6,1,0x7bc9,1,0x4227,2,0xd857,0xdc80,1,0x7cd2,1,0x42a0,1,0x7ce8,";
"    1,0x7ce3,1,0x7d00,2,0xd857,0xdf86,1,0x7d63,1,0x4301,1,0x7dc7,1,0x7e02,1,";
"    0x7e45,1,0x4334,2,0xd858,0xde28,2,0xd858,0xde47,1,0x4359,2,0xd858,0xded9,1,0x7f7a,";
"    2,0xd858,0xdf3e,1,0x7f95,1,0x7ffa,2,0xd859,0xdcda,2,0xd859,0xdd23,1,0x8060,2,";
"    0xd859,0xdda8,1,0x8070,2,0xd84c,0xdf5f,1,0x43d5,1,0x80b2,1,0x8103,1,0x440b,1,";
"    0x813e,1,0x5ab5,2,0xd859,0xdfa7,2,0xd859,0xdfb5,2,0xd84c,0xdf93,2,0xd84c,0xdf9c,1,";
"    0x8204,1,0x8f9e,1,0x446b,1,0x8291,1,0x828b,1,0x829d,1,0x52b3,1,0x82b1,1,";
"    0x82b3,1,0x82bd,1,0x82e6,2,0xd85a,0xdf3c,1,0x831d,1,0x8363,1,0x83ad,1,0x8323,";
"    1,0x83bd,1,0x83e7,1,0x8353,1,0x83ca,1,0x83cc,1,0x83dc,2,0xd85b,0xdc36,2,";
"    0xd85b,0xdd6b,2,0xd85b,0xdcd5,1,0x452b,1,0x84f1,1,0x84f3,1,0x8516,2,0xd85c,0xdfca,";
"    1,0x8564,2,0xd85b,0xdf2c,1,0x455d,1,0x4561,2,0xd85b,0xdfb1,2,0xd85c,0xdcd2,1,";
"    0x456b,1,0x8650,1,0x8667,1,0x8669,1,0x86a9,1,0x8688,1,0x870e,1,0x86e2,1,";
"    0x8728,1,0x876b,1,0x8786,1,0x45d7,1,0x87e1,1,0x8801,1,0x45f9,1,0x8860,1,";
"    0x8863,2,0xd85d,0xde67,1,0x88d7,1,0x88de,1,0x4635,1,0x88fa,1,0x34bb,2,0xd85e,";
"    0xdcae,2,0xd85e,0xdd66,1,0x46be,1,0x46c7,1,0x8aa0,1,0x8c55,2,0xd85f,0xdca8,1,";
"    0x8cab,1,0x8cc1,1,0x8d1b,1,0x8d77,2,0xd85f,0xdf2f,2,0xd842,0xdc04,1,0x8dcb,1,";
"    0x8dbc,1,0x8df0,2,0xd842,0xdcde,1,0x8ed4,2,0xd861,0xddd2,2,0xd861,0xdded,1,0x9094,";
"    1,0x90f1,1,0x9111,2,0xd861,0xdf2e,1,0x911b,1,0x9238,1,0x92d7,1,0x92d8,1,";
"    0x927c,1,0x93f9,1,0x9415,2,0xd862,0xdffa,1,0x958b,1,0x4995,1,0x95b7,2,0xd863,";
"    0xdd77,1,0x49e6,1,0x96c3,1,0x5db2,1,0x9723,2,0xd864,0xdd45,2,0xd864,0xde1a,1,";
"    0x4a6e,1,0x4a76,1,0x97e0,2,0xd865,0xdc0a,1,0x4ab2,2,0xd865,0xdc96,1,0x9829,2,";
"    0xd865,0xddb6,1,0x98e2,1,0x4b33,1,0x9929,1,0x99a7,1,0x99c2,1,0x99fe,1,0x4bce,";
"    2,0xd866,0xdf30,1,0x9c40,1,0x9cfd,1,0x4cce,1,0x4ced,1,0x9d67,2,0xd868,0xdcce,";
"    1,0x4cf8,2,0xd868,0xdd05,2,0xd868,0xde0e,2,0xd868,0xde91,1,0x9ebb,1,0x4d56,1,";
"    0x9ef9,1,0x9efe,1,0x9f05,1,0x9f0f,1,0x9f16,1,0x9f3b,2,0xd869,0xde00,0x3ac,0xe642,";
"    0x3b1,0x301,0x3ad,0xe642,0x3b5,0x301,0x3ae,0xe642,0x3b7,0x301,0x3af,0xe642,0x3b9,0x301,0x3cc,0xe642,";
"    0x3bf,0x301,0x3cd,0xe642,0x3c5,0x301,0x3ce,0xe642,0x3c9,0x301,0x386,0xe642,0x391,0x301,0x388,0xe642,";
"    0x395,0x301,0x389,0xe642,0x397,0x301,0x390,1,0xe643,0x3b9,0x308,0x301,0x38a,0xe642,0x399,0x301,";
"    0x3b0,1,0xe643,0x3c5,0x308,0x301,0x38e,0xe642,0x3a5,0x301,0x385,0xe642,0xa8,0x301,0x38c,0xe642,";
"    0x39f,0x301,0x38f,0xe642,0x3a9,0x301,0xc5,0xe642,0x41,0x30a,0xe6e6,0xe681,0x300,0xe6e6,0xe681,0x301,";
"    0xe6e6,0xe681,0x313,0xe6e6,0xe682,0x308,0x301,0x8100,0x8282,0xf71,0xf72,0x8100,0x8482,0xf71,0xf74,0x8100,";
"    0x8282,0xf71,0xf80,0";
"]";
"";
"norm2_nfc_data_smallFCD = [";
"    0xc0,0xef,3,0x7f,0xdf,0x70,0xcf,0x87,0xc7,0xe6,0x66,0x46,0x64,0x46,0x66,0x5b,";
"    0x12,0,0,4,0,0,0,0x43,0x20,2,0x69,0xae,0xc2,0xc0,0xff,0xff,";
"    0xc0,0x72,0xbf,0,0,0,0,0,0,0,0x40,0,0x80,0x88,0,0,";
"    0xfe,0,0,0,0,0,0,0,0,0,0,0,0,0,0,0,";
"    0,0,0,0,0,0,0,0,0,0,0,0,0,0,0,0,";
"    0,0,0,0,0,0,0,0,0,0,0,0,0,0,0,0,";
"    0,0,0,0,0,0,0,0,0,0,0,0,0,0,0,0,";
"    0,0,0,0,0,0,0,0,0,0,0,0,0,0,0,0,";
"    0,0,0,0,0,0,0,0,0,0,0,0,0,0,0,0,";
"    0,0,0,0,0,0,0,0,0,0,0,0,0,0,0,0,";
"    0,0,0,0,0,0,0x98,0,0xc3,0x66,0xe0,0x80,0,0,0,0,";
"    0,0,0,0,0,0,0,0,0,0,0,0,0,0,0,0,";
"    0,0,0,0,0,0,0,0,0,0,0,0,0,0,0,0,";
"    0,0,0,0,0,0,0,0,3,0,0,0,0,0,0,0,";
"    0,0,0,0,0,0,0,0,0,0,0,0,0,0,0,0,";
"    0,0,0,0,0,0,0,0,0,0,0,7,0,0,2,0";
"]"].
