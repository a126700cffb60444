{
 "claims": [
  {
   "property": "C01",
   "status": "proved",
   "theorems": [
    "C01_union"
   ],
   "note": "all pairs of reachable sets, in-place and operator forms"
  },
  {
   "property": "C02",
   "status": "proved",
   "theorems": [
    "C02_intersection"
   ],
   "note": ""
  },
  {
   "property": "C03",
   "status": "proved",
   "theorems": [
    "C03_difference"
   ],
   "note": ""
  },
  {
   "property": "C04",
   "status": "proved",
   "theorems": [
    "C04_symmetric_difference"
   ],
   "note": ""
  },
  {
   "property": "C05",
   "status": "proved",
   "theorems": [
    "C05_complement"
   ],
   "note": ""
  },
  {
   "property": "C06",
   "status": "proved",
   "theorems": [
    "C06_add"
   ],
   "note": ""
  },
  {
   "property": "C07",
   "status": "proved",
   "theorems": [
    "C07_addRange"
   ],
   "note": ""
  },
  {
   "property": "C08",
   "status": "partial",
   "theorems": [
    "C08_exact",
    "C08_range_operations_partial",
    "C08_python_range_partial",
    "C08_range_operations_refuted"
   ],
   "note": "the full statement is false of the code: a range of one code point leaves the set unchanged (C08_..._refuted); exact for start < end and end < start; C08_exact gives the result for every pair of code points"
  },
  {
   "property": "C09",
   "status": "partial",
   "theorems": [
    "C09_single_refuted",
    "C09_single_never_changes_anything"
   ],
   "note": "the full statement is false of the code: remove(x), retain(x), complement(x) never change any set (refutation and exact characterisation)"
  },
  {
   "property": "C10",
   "status": "partial",
   "theorems": [
    "C10_histories_partial",
    "C10_histories_refuted"
   ],
   "note": "full refinement of a heap model to a store of mathematical sets; false for one-element removeRange/retainRange/complementRange (refuted), proved for all other legal histories; C98 covers every history, one-element ranges included"
  },
  {
   "property": "C11",
   "status": "partial",
   "theorems": [
    "C11_exact",
    "C11_equality_partial",
    "C11_equality_refuted"
   ],
   "note": "false of the code for sets produced by union or degenerate constructor arguments (refuted); proved for all other reachable sets; C11_exact: == holds exactly if getRanges and contains(0x110000) agree"
  },
  {
   "property": "C12",
   "status": "proved",
   "theorems": [
    "C12_iteration"
   ],
   "note": ""
  },
  {
   "property": "C13",
   "status": "proved",
   "theorems": [
    "C13_charAt",
    "C13_indexOf",
    "C13_inverse"
   ],
   "note": ""
  },
  {
   "property": "C14",
   "status": "proved",
   "theorems": [
    "C14_ranges"
   ],
   "note": ""
  },
  {
   "property": "C15",
   "status": "partial",
   "theorems": [
    "C15_exact",
    "C15_true_is_right",
    "C15_contains_range_partial",
    "C15_contains_range_refuted",
    "C15_empty_range_refuted"
   ],
   "note": "false of the code for degenerate lists and empty ranges (refuted); proved otherwise; C15_exact: True exactly if one listed range has the whole range in it; C15_true_is_right: True is never wrong"
  },
  {
   "property": "C16",
   "status": "partial",
   "theorems": [
    "C16_exact",
    "C16_contains_partial",
    "C16_contains_refuted"
   ],
   "note": "contains(0x110000) can answer True (refuted); totality and negatives proved; C16_exact: one answer for all x above 0x10FFFF, and when it is True"
  },
  {
   "property": "C17",
   "status": "proved",
   "theorems": [
    "C17_laws"
   ],
   "note": "every Boolean identity, not only the listed laws"
  },
  {
   "property": "C18",
   "status": "partial",
   "theorems": [
    "C18_exact",
    "C18_returns_self_refuted",
    "C18_returns_self_partial"
   ],
   "note": "addRange returns None on its fast path (refuted); other mutators end in 'return self' by construction of the model; C18_exact: exactly when addRange returns None"
  },
  {
   "property": "C19",
   "status": "partial",
   "theorems": [
    "C19_constructors",
    "C19_descending_range_refuted"
   ],
   "note": "a range object with stop < start is accepted and builds a malformed set (refuted); legal arguments proved"
  },
  {
   "property": "C20",
   "status": "proved",
   "theorems": [
    "C20_surrogates_of_char",
    "C20_char_of_surrogates"
   ],
   "note": ""
  },
  {
   "property": "C21",
   "status": "proved",
   "theorems": [
    "C21_surrogate_classes",
    "C21_noncharacters"
   ],
   "note": ""
  },
  {
   "property": "C22",
   "status": "proved",
   "theorems": [
    "C22_arithmeticShift",
    "C22_signed_range",
    "C22_decodes"
   ],
   "note": ""
  },
  {
   "property": "C23",
   "status": "proved",
   "theorems": [
    "C23_highBit"
   ],
   "note": ""
  },
  {
   "property": "C24",
   "status": "partial",
   "theorems": [
    "C24_exact",
    "C24_every_function_has_a_trie",
    "C24_lookup_partial",
    "C24_lookup_last_code_point_refuted"
   ],
   "note": "every value function has a trie; lookup exact for all code points below U+10FFFF and past it; U+10FFFF itself gets the error value (refuted); C24_exact states both for every c >= 0"
  },
  {
   "property": "C25",
   "status": "partial",
   "theorems": [
    "C25_exact",
    "C25_cut",
    "C25_unaligned_refuted",
    "C25_enumeration_partition_partial",
    "C25_enumeration_ends",
    "C25_enumeration_does_not_raise",
    "C25_enumeration_partition_refuted"
   ],
   "note": "false in general (refuted: a request inside the trail surrogates, or a long one that does not start at a multiple of 32, overshoots its limit); exact partition proved for all other requests, termination for all, absence of exceptions for all tries with references in range; C25_exact: for every request the ranges are consecutive, start below the limit, and the last one overshoots by less than 32 (1024 at the trail surrogates); C25_cut: cut off at the limit they are always the partition asked for"
  },
  {
   "property": "C26",
   "status": "partial",
   "theorems": [
    "C26_exact",
    "C26_enumeration_agrees_partial",
    "C26_enumeration_agrees_refuted"
   ],
   "note": "false past one window of 2048 code points (refuted on a well-formed trie); proved for every request inside one window; for requests of any length in the BMP, below or above the surrogates, C26_exact says exactly when the values are right: no window may end before a block that follows 32 equal values and differs from them"
  },
  {
   "property": "C27",
   "status": "proved",
   "theorems": [
    "C27_lookup",
    "C27_functions_have_tries",
    "C27_high_value"
   ],
   "note": "every well-formed layout of either type, including 18-bit index-3 blocks and overlapping data blocks; every function constant from U+40000 on has a trie"
  },
  {
   "property": "C28",
   "status": "partial",
   "theorems": [
    "C28_answered",
    "C28_answers",
    "C28_nothing_past",
    "C28_enumeration_partial",
    "C28_enumeration_agrees_refuted",
    "C28_fast_never_ends_refuted",
    "C28_half_block_never_ends_refuted",
    "C28_infinite_loop_refuted",
    "C28_middle_never_ends_refuted",
    "C28_fast_anywhere_refuted",
    "C28_high_missing_refuted",
    "C28_enumeration_partition_refuted"
   ],
   "note": "false in general: no request gets past the middle of an index-3 block that is not the null block (C28_middle_never_ends_refuted, every trie), none that touches U+1000..U+FFFF is answered on FAST tries, and no answer reaches past highStart (C28_high_missing_refuted, every trie); repeated non-constant blocks get wrong values. What does hold is exact: C28_answered says for every well-formed layout which requests are answered (if and only if), C28_answers what the answer is - where it ends, when the last range comes twice, and exactly when it agrees with lookup"
  },
  {
   "property": "C29",
   "status": "proved",
   "theorems": [
    "C29_round_trip",
    "C29_file_lookup",
    "C29_truncated"
   ],
   "note": "all widths, any trailing bytes; also lookup after parsing, and rejection of every truncated file"
  },
  {
   "property": "C30",
   "status": "partial",
   "theorems": [
    "C30_fields",
    "C30_vectors_exist",
    "C30_shipped_vectors",
    "C30_column_bound_refuted"
   ],
   "note": "all vectors and all tables; every triple of 32 bit words and every shipped code point has such a vector; the column bound check is off by one (refuted)"
  },
  {
   "property": "C31",
   "status": "partial",
   "theorems": [
    "C31_categories",
    "C31_names",
    "C31_shipped",
    "C31_graph_print_refuted"
   ],
   "note": "all tables; isgraph does not imply isPrint for private use characters (refuted)"
  },
  {
   "property": "C32",
   "status": "partial",
   "theorems": [
    "C32_every_word",
    "C32_encoding_unique",
    "C32_values_partial",
    "C32_large_refuted",
    "C32_large_exact",
    "C32_large_digits",
    "C32_digit",
    "C32_shipped"
   ],
   "note": "nearest double for every encoding except integers m*10^e with e > 24, where it is false (refuted at 10^25) and right to 15 digits; every shipped character is in the proved range"
  },
  {
   "property": "C33",
   "status": "proved",
   "theorems": [
    "C33_bidi",
    "C33_charprops"
   ],
   "note": "CharProps and BidiProps getters; bracket types have no dictionary and are 0, 1 or 2"
  },
  {
   "property": "C34",
   "status": "partial",
   "theorems": [
    "C34_surrogates",
    "C34_noncharacters_partial",
    "C34_noncharacters_refuted",
    "C34_exact"
   ],
   "note": "surrogates proved; noncharacters proved below U+10FFFF and refuted at U+10FFFF; C34_exact"
  },
  {
   "property": "C35",
   "status": "partial",
   "theorems": [
    "C35_idignorable_refuted",
    "C35_idignorable_is_format",
    "C35_idignorable_partial"
   ],
   "note": "false of the code (missing return): refuted at U+0000, exact characterisation and the part that holds proved"
  },
  {
   "property": "C36",
   "status": "partial",
   "theorems": [
    "C36_numeric_type_refuted",
    "C36_numeric_type_is_category"
   ],
   "note": "false of the code: refuted, and it is shown to be the general category"
  },
  {
   "property": "C37",
   "status": "proved",
   "theorems": [
    "C37_slot",
    "C37_has_slot",
    "C37_popcount"
   ],
   "note": ""
  },
  {
   "property": "C38",
   "status": "proved",
   "theorems": [
    "C38_simple",
    "C38_uncased"
   ],
   "note": ""
  },
  {
   "property": "C39",
   "status": "proved",
   "theorems": [
    "C39_full",
    "C39_lower"
   ],
   "note": ""
  },
  {
   "property": "C40",
   "status": "proved",
   "theorems": [
    "C40_ascii"
   ],
   "note": ""
  },
  {
   "property": "C41",
   "status": "proved",
   "theorems": [
    "C41_involution"
   ],
   "note": ""
  },
  {
   "property": "C42",
   "status": "proved",
   "theorems": [
    "C42_brackets"
   ],
   "note": ""
  },
  {
   "property": "C43",
   "status": "proved",
   "theorems": [
    "C43_syllables",
    "C43_recompose",
    "C43_injective",
    "C43_raw_expands",
    "C43_shipped"
   ],
   "note": ""
  },
  {
   "property": "C44",
   "status": "proved",
   "theorems": [
    "C44_mapping_strings"
   ],
   "note": ""
  },
  {
   "property": "C45",
   "status": "proved",
   "theorems": [
    "C45_closure",
    "C45_final"
   ],
   "note": ""
  },
  {
   "property": "C46",
   "status": "proved",
   "theorems": [
    "C46_file",
    "C46_any_table",
    "C46_strings",
    "C46_unterminated",
    "C46_names",
    "C46_exactly",
    "C46_loaded_once",
    "C46_header",
    "C46_header_length"
   ],
   "note": "C46_exactly: a file of bytes is read without an exception exactly if it has such a table"
  },
  {
   "property": "C47",
   "status": "proved",
   "theorems": [
    "C47_lengths",
    "C47_offsets"
   ],
   "note": "all lengths, any padding and context; a padding nibble below 12 is read as the length of a 33rd string, which no name uses"
  },
  {
   "property": "C48",
   "status": "proved",
   "theorems": [
    "C48_group",
    "C48_no_group",
    "C48_total",
    "C48_no_table"
   ],
   "note": "all sorted tables, all integers; total on every non-empty table, IndexError on the empty one"
  },
  {
   "property": "C49",
   "status": "proved",
   "theorems": [
    "C49_expand",
    "C49_extended_skips"
   ],
   "note": "all token tables and encodings; the extended choice skips an empty first field"
  },
  {
   "property": "C50",
   "status": "proved",
   "theorems": [
    "C50_hex_name",
    "C50_hex_unique",
    "C50_factored",
    "C50_factored_unique",
    "C50_other_choices"
   ],
   "note": "hexadecimal names unique for all ranges; factored names are mixed radix for all ranges and unique for alternating tables (Hangul shown)"
  },
  {
   "property": "C51",
   "status": "partial",
   "theorems": [
    "C51_iterator",
    "C51_lookup",
    "C51_not_found",
    "C51_lookup_refuted",
    "C51_extended_refuted"
   ],
   "note": "proved for all tables in which each range contains a whole block of 32 without a group; false without that, and for extended names (both refuted)"
  },
  {
   "property": "C52",
   "status": "proved",
   "theorems": [
    "C52_lookup",
    "C52_grouping"
   ],
   "note": "Attribute lookup for all elements, and the whole object depends on nothing else."
  },
  {
   "property": "C53",
   "status": "proved",
   "theorems": [
    "C53_list",
    "C53_self",
    "C53_written",
    "C53_space"
   ],
   "note": "Lists of any length; a doubled space raises ValueError."
  },
  {
   "property": "C54",
   "status": "proved",
   "theorems": [
    "C54_listOfCodes",
    "C54_width"
   ],
   "note": ""
  },
  {
   "property": "C55",
   "status": "proved",
   "theorems": [
    "C55_consistent"
   ],
   "note": ""
  },
  {
   "property": "C56",
   "status": "partial",
   "theorems": [
    "C56_contiguous_partial",
    "C56_columns_partial",
    "C56_columns_refuted",
    "C56_exact"
   ],
   "note": "proved below U+10FFFF; U+10FFFF is reported in no block (refuted); C56_exact"
  },
  {
   "property": "C57",
   "status": "proved",
   "theorems": [
    "C57_ranges",
    "C57_isspace"
   ],
   "note": ""
  },
  {
   "property": "C58",
   "status": "partial",
   "theorems": [
    "C58_exception",
    "C58_full_exception",
    "C58_delta",
    "C58_shipped",
    "C58_utf16_refuted"
   ],
   "note": "proved for all tables; that the mapping strings are read as UTF-16 text is refuted (units are turned into characters one by one; no shipped mapping is affected)"
  },
  {
   "property": "C59",
   "status": "proved",
   "theorems": [
    "C59_trips"
   ],
   "note": "with the exact lists of exceptions"
  },
  {
   "property": "C60",
   "status": "proved",
   "theorems": [
    "C60_fields",
    "C60_every_word",
    "C60_mirror",
    "C60_table_involution",
    "C60_joining_group",
    "C60_shipped"
   ],
   "note": ""
  },
  {
   "property": "C61",
   "status": "partial",
   "theorems": [
    "C61_controls",
    "C61_categories",
    "C61_nonchars_partial",
    "C61_nonchars_refuted",
    "C61_exact"
   ],
   "note": "noncharacters proved below U+10FFFF; U+10FFFF itself gets class L (refuted); C61_exact"
  },
  {
   "property": "C62",
   "status": "proved",
   "theorems": [
    "C62_full",
    "C62_raw"
   ],
   "note": ""
  },
  {
   "property": "C63",
   "status": "proved",
   "theorems": [
    "C63_no_decomposition",
    "C63_lead_surrogates",
    "C63_distance_raw",
    "C63_distance_full",
    "C63_constructor"
   ],
   "note": ""
  },
  {
   "property": "C64",
   "status": "partial",
   "theorems": [
    "C64_results",
    "C64_other_integers",
    "C64_negative_refuted"
   ],
   "note": "integers below -7892 raise IndexError (refuted for all integers, proved for all others)"
  },
  {
   "property": "C65",
   "status": "proved",
   "theorems": [
    "C65_pairs"
   ],
   "note": ""
  },
  {
   "property": "C66",
   "status": "proved",
   "theorems": [
    "C66_decomposition_type"
   ],
   "note": ""
  },
  {
   "property": "C67",
   "status": "proved",
   "theorems": [
    "C67_normalizer_from_file",
    "C67_normalizer_missing",
    "C67_same_as_hard_coded"
   ],
   "note": "the trie is that of C29; the ICU file format is specified in ICUFacts.v and ICUItems.v"
  },
  {
   "property": "C68",
   "status": "proved",
   "theorems": [
    "C68_layout_from_file",
    "C68_layout_values"
   ],
   "note": ""
  },
  {
   "property": "C69",
   "status": "partial",
   "theorems": [
    "C69_failure_repeats_refuted",
    "C69_partly_loaded_refuted",
    "C69_kept",
    "C69_empty_file_partial"
   ],
   "note": "refuted: the bytes are remembered before the table is read, so the next call succeeds with whatever had been loaded; only the empty file fails repeatedly; C69_kept: for every file of bytes, exactly the entries before the first bad one stay known"
  },
  {
   "property": "C70",
   "status": "proved",
   "theorems": [
    "C70_names_from_file",
    "C70_name"
   ],
   "note": "full byte-level round trip of unames.icu inside icudata.dat, then names of code points end to end"
  },
  {
   "property": "C71",
   "status": "partial",
   "theorems": [
    "C71_extended",
    "C71_category",
    "C71_extended_unique",
    "C71_standard_refuted",
    "C71_above",
    "C71_negative",
    "C71_negative_refuted"
   ],
   "note": "total, unique and exact; 'standard if there is one' is refuted: it is always synthetic"
  },
  {
   "property": "C72",
   "status": "proved",
   "theorems": [
    "C72_appends",
    "C72_same_names"
   ],
   "note": "any number of loads"
  },
  {
   "property": "C73",
   "status": "proved",
   "theorems": [
    "C73_record"
   ],
   "note": "The whole object is given field by field. Numeric values: eval is modelled for whole numbers and quotients only."
  },
  {
   "property": "C74",
   "status": "partial",
   "theorems": [
    "C74_simple_title_refuted",
    "C74_simple_title_partial"
   ],
   "note": "Refuted for the simple title case, which CaseProperties.py:24 leaves as text; the other mappings are in C73."
  },
  {
   "property": "C75",
   "status": "partial",
   "theorems": [
    "C75_missing_bracket_refuted",
    "C75_bidi_partial",
    "C75_exactly",
    "C75_errors"
   ],
   "note": "Refuted for a missing bpb, which is passed to int(); proved for '#', numerals and a missing bmg.; C75_exactly: when there is an object and what it says, for every element; C75_errors: otherwise a ValueError"
  },
  {
   "property": "C76",
   "status": "partial",
   "theorems": [
    "C76_case_fold_copies_partial",
    "C76_exactly",
    "C76_case_fold_copies_refuted"
   ],
   "note": "Refuted when the attribute is missing (None against the character itself), proved when it is not.; C76_exactly: the copies agree exactly if there is an attribute, and what each is if there is none"
  },
  {
   "property": "C77",
   "status": "proved",
   "theorems": [
    "C77_names"
   ],
   "note": "Proved for every range of type 0 and code point text of the width the range prints."
  },
  {
   "property": "C78",
   "status": "proved",
   "theorems": [
    "C78_index",
    "C78_failure",
    "C78_members"
   ],
   "note": "Code points must be legal (0..0x10FFFF). Second read() proved to be a no-op."
  },
  {
   "property": "C79",
   "status": "partial",
   "theorems": [
    "C79_constants_partial",
    "C79_constants_refuted",
    "C79_tuples",
    "C79_all_tuples"
   ],
   "note": "Refuted for seven constants that a trailing comma turns into one-element tuples (all tuples of the modules are listed in C79_all_tuples); every other constant agrees with the header modules. Three names that the headers do not define are excepted."
  },
  {
   "property": "C80",
   "status": "partial",
   "theorems": [
    "C80_copies_partial",
    "C80_copies_refuted",
    "C80_differences"
   ],
   "note": "Refuted for five block names and one word break name; all other entries agree. Property aliases generated from different versions of the naming."
  },
  {
   "property": "C81",
   "status": "partial",
   "theorems": [
    "C81_bijective",
    "C81_getters",
    "C81_bijective_refuted"
   ],
   "note": "Proved for UCDTypeDictionaries; refuted for Scripts.scriptCodes, where tuple keys repeat names."
  },
  {
   "property": "C82",
   "status": "partial",
   "theorems": [
    "C82_lines_partial",
    "C82_reading",
    "C82_comment_partial",
    "C82_nested_refuted",
    "C82_swallow_refuted",
    "C82_close_refuted",
    "C82_comment_refuted",
    "C82_dollar_refuted"
   ],
   "note": "Proved for headers of the listed items, where conditionals do not nest and comments and code share no line but for trailing comments; refuted otherwise (nested conditionals, code after a comment, \"//\" in strings). Termination and a first token on each delivered line hold for all input."
  },
  {
   "property": "C83",
   "status": "partial",
   "theorems": [
    "C83_translate_partial",
    "C83_numerals",
    "C83_values_refuted"
   ],
   "note": "Proved for one enumerator to a line and one space after #define; refuted for several enumerators on a line, for an enumerator after \"{\" and for enumerations on one line. eval is a parameter of which only eval(str(n)) = n is assumed; an instance is given."
  },
  {
   "property": "C84",
   "status": "partial",
   "theorems": [
    "C84_errors_partial",
    "C84_errors_refuted"
   ],
   "note": "The only other error is IndexError, for lines without a name: refuted for \"#define  A 1\" and for \"}\" and \";\" on two lines."
  },
  {
   "property": "C85",
   "status": "partial",
   "theorems": [
    "C85_array_partial",
    "C85_scalar_partial",
    "C85_name_refuted"
   ],
   "note": "The name must not be the end of a longer name that is declared before, and a scalar must end its line: refuted otherwise. Python and C numerals are compared as text."
  },
  {
   "property": "C86",
   "status": "proved",
   "theorems": [
    "C86_trie",
    "C86_declaration"
   ],
   "note": "The order of the fields of the C struct is from ICU, which is not in the repository."
  },
  {
   "property": "C87",
   "status": "proved",
   "theorems": [
    "C87_dictionaries",
    "C87_short",
    "C87_names",
    "C87_exceptions"
   ],
   "note": "csv.reader is not modelled: the rows are the input. upper() and lower() are ASCII."
  },
  {
   "property": "C88",
   "status": "partial",
   "theorems": [
    "C88_text",
    "C88_run",
    "C88_shipped",
    "C88_quote_refuted"
   ],
   "note": "A short name with a quotation mark gives text that is not a Python string: C88_quote_refuted."
  },
  {
   "property": "C89",
   "status": "partial",
   "theorems": [
    "C89_category_partial",
    "C89_tries_partial",
    "C89_category_refuted",
    "C89_vectors_refuted",
    "C89_value_functions",
    "C89_nfc_refuted"
   ],
   "note": "Refuted: an offset in the enumerator makes it read wrong blocks. Proved that the ranges partition all code points and are right exactly outside explicit lists; script, block and width raise IndexError; the normalisation trie (fast type) is never enumerated to the end."
  },
  {
   "property": "C90",
   "status": "proved",
   "theorems": [
    "C90_text",
    "C90_equal"
   ],
   "note": "Evaluation of the text is by a reader of list displays of hexadecimal numbers in UnicodeSetText.v."
  },
  {
   "property": "C91",
   "status": "proved",
   "theorems": [
    "C91_accepted",
    "C91_rejected"
   ],
   "note": "ArgumentIterator is not in the repository: what it accepts as a value is a parameter."
  },
  {
   "property": "C92",
   "status": "proved",
   "theorems": [
    "C92_space",
    "C92_ascii"
   ],
   "note": "\\w, upper and lower are compared for ASCII only, which is what the model has of them."
  },
  {
   "property": "C93",
   "status": "partial",
   "theorems": [
    "C93_fields",
    "C93_from_file",
    "C93_semicolon_refuted"
   ],
   "note": "Unconditional apart from the encoding; semicolon inside a token refuted."
  },
  {
   "property": "C94",
   "status": "partial",
   "theorems": [
    "C94_round_trip",
    "C94_errors",
    "C94_split_partial",
    "C94_split_refuted"
   ],
   "note": "C94_split_partial is the split at semicolons without quotation marks; C94_split_refuted shows that it fails with them."
  },
  {
   "property": "C95",
   "status": "partial",
   "theorems": [
    "C95_plan",
    "C95_success",
    "C95_frame",
    "C95_again",
    "C95_versions",
    "C95_line_ends",
    "C95_atomic_refuted",
    "C95_license_refuted",
    "C95_same_refuted",
    "C95_version_refuted"
   ],
   "note": "C95_atomic_refuted, C95_license_refuted, C95_same_refuted and C95_version_refuted show what fails; the rest is proved in full."
  },
  {
   "property": "C96",
   "status": "partial",
   "theorems": [
    "C96_install",
    "C96_package",
    "C96_data_refuted",
    "C96_directory_refuted"
   ],
   "note": "C96_data_refuted and C96_directory_refuted show what fails without the directories; the rest is proved in full."
  },
  {
   "property": "C97",
   "status": "partial",
   "theorems": [
    "C97_paths",
    "C97_parent",
    "C97_child",
    "C97_parent_refuted"
   ],
   "note": "C97_parent_refuted: the parent of '.' is '.' itself, so the license is looked for in the wrong place."
  },
  {
   "property": "C98",
   "status": "partial",
   "theorems": [
    "C98_histories",
    "C98_no_idle_calls",
    "C98_frame",
    "C98_not_code_points_refuted"
   ],
   "note": "Exact for all code point arguments, including the one-element ranges for which C10 is refuted. Integers outside Unicode are refuted: they are not rejected."
  },
  {
   "property": "C99",
   "status": "proved",
   "theorems": [
    "C99_bidi",
    "C99_caseProps",
    "C99_char",
    "C99_lines",
    "C99_headers",
    "C99_dictionaries",
    "C99_copies"
   ],
   "note": "C99_bidi, C99_char, C99_caseProps, C99_headers, C99_dictionaries, C99_copies. The texts are given independently of heading, partsLines and the plan of C95; they use arrayToPython and the like, whose results C82 to C88 specify."
  },
  {
   "property": "C100",
   "status": "proved",
   "theorems": [
    "C100_constants",
    "C100_bidi",
    "C100_caseProps",
    "C100_charProps",
    "C100_nfc",
    "C100_version",
    "C100_tuples",
    "C100_tuple_value"
   ],
   "note": "The data files of the model no longer rest on a script outside Coq, except for the text itself (tools/gen_text.py copies lines)."
  },
  {
   "property": "C101",
   "status": "partial",
   "theorems": [
    "C101_bidi",
    "C101_caseProps",
    "C101_charProps",
    "C101_version",
    "C101_numerals_refuted"
   ],
   "note": "C101_bidi, C101_charProps, C101_caseProps, C101_version. Octal numerals and numerals with a suffix, which C has and Python has not, are refuted: the module is not valid Python (C101_numerals_refuted)."
  },
  {
   "property": "C102",
   "status": "partial",
   "theorems": [
    "C102_names",
    "C102_other_names",
    "C102_lists",
    "C102_header",
    "C102_build",
    "C102_eval",
    "C102_values_refuted",
    "C102_names_refuted",
    "C102_errors"
   ],
   "note": "C102_header, C102_build; C102_eval: the modelled reader is an eval as required. Refuted: numerals with a suffix, casts, uses of ignored macros (the module cannot be imported; C102_values_refuted) and enumerators that use names from outside their enumeration (C102_names_refuted). C102_names, C102_other_names and C102_lists: which characters make a name that is read, and that any expressions with commas between them are read."
  },
  {
   "property": "C103",
   "status": "partial",
   "theorems": [
    "C103_kinds",
    "C103_decomposes",
    "C103_inert",
    "C103_inert_characters",
    "C103_always_inert",
    "C103_above",
    "C103_parts_refuted"
   ],
   "note": "An inert character can be part of a decomposition of another one (C103_parts_refuted)."
  },
  {
   "property": "C104",
   "status": "partial",
   "theorems": [
    "C104_import",
    "C104_missing",
    "C104_build",
    "C104_names_refuted"
   ],
   "note": "Names are written without escaping: a quotation mark in a short name makes the module unreadable, and a hyphen in a long name becomes a subtraction (C104_names_refuted)."
  },
  {
   "property": "C105",
   "status": "proved",
   "theorems": [
    "C105_message",
    "C105_refines",
    "C105_build",
    "C105_status",
    "C105_install"
   ],
   "note": "The argument iterator (FontDocTools) is not in the repository: which values it accepts and the text of its error are parameters."
  },
  {
   "property": "C106",
   "status": "proved",
   "theorems": [
    "C106_passes",
    "C106_untested",
    "C106_nothing",
    "C106_again",
    "C106_blind",
    "C106_results",
    "C106_last"
   ],
   "note": "The character, case and bidi data are the shipped ones; the layout properties, names and the three normalizers are parameters (C106_results takes the shipped nfc for the first). Decoded mappings are the record's fields, which C53 and C73 determine from the attributes."
  },
  {
   "property": "C107",
   "status": "partial",
   "theorems": [
    "C107_programs",
    "C107_errors",
    "C107_ranges",
    "C107_conditions",
    "C107_changed_in_loop_refuted",
    "C107_equal_to_other_types_refuted",
    "C107_empty_is_true_refuted",
    "C107_step_refuted",
    "C107_numbers"
   ],
   "note": "Proved for every program of which the specification says something (C107_programs, C107_errors). It is silent on arguments outside Unicode, on a loop that changes the set it runs over (refuted: IndexError, members met twice or missed), on range steps other than 1 (refuted: ignored) and on the answers that depend on how a set was made (C11, C15, C18). == with another type raises AttributeError and the empty set counts as true (refuted).; C107_conditions and C107_ranges: which branch an if takes and what a range has in it; C107_numbers: what range(a, b, step) and a + k are, True counting as 1"
  },
  {
   "property": "C108",
   "status": "partial",
   "theorems": [
    "C108_any_trie_partial",
    "C108_char_partial",
    "C108_bidi_case_partial",
    "C108_last_refuted",
    "C108_negative_refuted",
    "C108_far_below"
   ],
   "note": "false at U+10FFFF and for negative integers (refuted); what every integer outside 0..0x10FFFE gets is proved for every trie, and spelled out per getter for the shipped tables"
  },
  {
   "property": "C109",
   "status": "proved",
   "theorems": [
    "C109_total",
    "C109_graphemes",
    "C109_words",
    "C109_sentences"
   ],
   "note": "proved for all code points of the shipped tables"
  },
  {
   "property": "C110",
   "status": "proved",
   "theorems": [
    "C110_derived",
    "C110_layout"
   ],
   "note": "proved for all code points of the shipped tables"
  },
  {
   "property": "C111",
   "status": "proved",
   "theorems": [
    "C111_unassigned"
   ],
   "note": "proved for all code points of the shipped tables; U+10FFFF is no noncharacter to the library (C108), and has the values of an ordinary unassigned code point"
  },
  {
   "property": "C112",
   "status": "partial",
   "theorems": [
    "C112_same",
    "C112_indexes",
    "C112_kept",
    "C112_retry_refuted"
   ],
   "note": "refuted; C112_kept says for every file what is kept and what every later call answers; C112_same: without a bad element this model and that of C78 agree; C112_indexes: filling the indexes never raises, so an exception of read names a bad element"
  },
  {
   "property": "C113",
   "status": "proved",
   "theorems": [
    "C113_segmentation",
    "C113_joining",
    "C113_identifiers",
    "C113_kind",
    "C113_age"
   ],
   "note": "Over every decomposition of the shipped data, from the run lists of the tries; exceptions are part of the statement."
  },
  {
   "property": "C114",
   "status": "proved",
   "theorems": [
    "C114_upper",
    "C114_lower",
    "C114_equivalent",
    "C114_title",
    "C114_simple_lower",
    "C114_simple_upper_differs"
   ],
   "note": "By induction over the text from a check of every decomposition."
  },
  {
   "property": "C115",
   "status": "proved",
   "theorems": [
    "C115_lower",
    "C115_upper",
    "C115_title",
    "C115_iota",
    "C115_identifiers",
    "C115_title_identifiers"
   ],
   "note": "Over the run list of the case trie; exceptions are part of the statement."
  },
  {
   "property": "C116",
   "status": "proved",
   "theorems": [
    "C116_again",
    "C116_key",
    "C116_key_of_key",
    "C116_same",
    "C116_canonical",
    "C116_other_order"
   ],
   "note": "By induction over the text from a check of every code point with case data."
  },
  {
   "property": "C117",
   "status": "proved",
   "theorems": [
    "C117_images",
    "C117_brackets",
    "C117_mirrors",
    "C117_struck",
    "C117_flags"
   ],
   "note": "Over the run list of the bidi trie and the list of all decompositions; texts by induction."
  },
  {
   "property": "C118",
   "status": "proved",
   "theorems": [
    "C118_rows",
    "C118_numbers",
    "C118_every_number",
    "C118_ascii",
    "C118_zeros"
   ],
   "note": "Over the run list of the props trie; numbers by induction."
  },
  {
   "property": "C119",
   "status": "partial",
   "theorems": [
    "C119_same",
    "C119_prefix",
    "C119_extends",
    "C119_script_refuted",
    "C119_width_refuted"
   ],
   "note": "C119_same, C119_prefix, C119_extends for all tries and functions; the shipped vectors give wrong values before the error (C119_script_refuted, C119_width_refuted, with the exact lists)"
  },
  {
   "property": "C120",
   "status": "proved",
   "theorems": [
    "C120_search",
    "C120_add",
    "C120_adds"
   ],
   "note": "C120_search, C120_add (with the converse: only the empty list makes add raise), C120_adds"
  },
  {
   "property": "C121",
   "status": "proved",
   "theorems": [
    "C121_same",
    "C121_grows",
    "C121_stuck",
    "C121_every",
    "C121_nfc"
   ],
   "note": "C121_every, C121_stuck; C121_same: the generator with its yields agrees with the model of C28, C121_grows: ranges once yielded stay; C121_nfc: the shipped normalisation data gives 932 right ranges up to U+0FC6 and then nothing for ever"
  },
  {
   "property": "C122",
   "status": "proved",
   "theorems": [
    "C122_utf8",
    "C122_back",
    "C122_ascii",
    "C122_import",
    "C122_build",
    "C122_build_texts",
    "C122_install"
   ],
   "note": "C122_utf8, C122_back, C122_ascii: the codecs; C122_build, C122_build_texts: the build of bytes against the build of texts; C122_import, C122_install. The whole file is decoded before its text is used"
  },
  {
   "property": "C123",
   "status": "proved",
   "theorems": [
    "C123_encode",
    "C123_locale",
    "C123_locale_matters"
   ],
   "note": "C123_encode: no UnicodeEncodeError; C123_locale: ASCII sources; C123_locale_matters: the case in which the encoding matters (the source is valid in both)"
  },
  {
   "property": "C124",
   "status": "proved",
   "theorems": [
    "C124_collect",
    "C124_ranges",
    "C124_utrie2",
    "C124_cptrie",
    "C124_category"
   ],
   "note": "C124_collect: the members; C124_ranges: the ranges; C124_utrie2, C124_cptrie: against lookups; C124_category: the shipped data, with the listed exceptions of C89"
  },
  {
   "property": "C125",
   "status": "proved",
   "theorems": [
    "C125_rebuild",
    "C125_equal",
    "C125_contains_range",
    "C125_ranges"
   ],
   "note": "C125_rebuild: members; C125_equal: ==; C125_contains_range; C125_ranges: shape of the ranges"
  },
  {
   "property": "C126",
   "status": "proved",
   "theorems": [
    "C126_sorted",
    "C126_order",
    "C126_ranges",
    "C126_copies"
   ],
   "note": "C126_sorted, C126_order: code points; C126_ranges: ranges; C126_copies: against C125"
  },
  {
   "property": "C127",
   "status": "proved",
   "theorems": [
    "C127_collected",
    "C127_partition",
    "C127_category",
    "C127_sizes",
    "C127_complement",
    "C127_subset",
    "C127_index",
    "C127_add"
   ],
   "note": "C127_sizes, C127_complement, C127_subset, C127_index, C127_add for all sets that can be built; C127_collected, C127_partition, C127_category for enumerations"
  },
  {
   "property": "C128",
   "status": "proved",
   "theorems": [
    "C128_empty",
    "C128_equal",
    "C128_disjoint",
    "C128_range",
    "C128_single"
   ],
   "note": "C128_empty, C128_equal, C128_disjoint, C128_range, C128_single; the example shows sets for which the direct calls answer differently"
  },
  {
   "property": "C129",
   "status": "proved",
   "theorems": [
    "C129_piecewise",
    "C129_sets",
    "C129_shipped",
    "C129_category"
   ],
   "note": "C129_piecewise, C129_sets for any trie; C129_shipped, C129_category for the shipped ones. U+10FFFF is left out because get has the error value there (C24)."
  },
  {
   "property": "C130",
   "status": "proved",
   "theorems": [
    "C130_last",
    "C130_undo",
    "C130_independent"
   ],
   "note": "C130_last for all sequences; C130_undo, C130_independent."
  },
  {
   "property": "C131",
   "status": "proved",
   "theorems": [
    "C131_runs",
    "C131_fewest",
    "C131_operations"
   ],
   "note": "C131_runs, C131_fewest, C131_operations."
  }
 ]
}