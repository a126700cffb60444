{
 "C01": "all pairs of reachable sets, in-place and operator forms",
 "C08": "the full statement is false of the code: a range of one code point leaves the set unchanged (C08_..._refuted); exact for start < end and end < start; C08_exact gives the result for every pair of code points",
 "C09": "the full statement is false of the code: remove(x), retain(x), complement(x) never change any set (refutation and exact characterisation)",
 "C10": "full refinement of a heap model to a store of mathematical sets; false for one-element removeRange/retainRange/complementRange (refuted), proved for all other legal histories; C98 covers every history, one-element ranges included",
 "C11": "false of the code for sets produced by union or degenerate constructor arguments (refuted); proved for all other reachable sets; C11_exact: == holds exactly if getRanges and contains(0x110000) agree",
 "C15": "false of the code for degenerate lists and empty ranges (refuted); proved otherwise; C15_exact: True exactly if one listed range has the whole range in it; C15_true_is_right: True is never wrong",
 "C16": "contains(0x110000) can answer True (refuted); totality and negatives proved; C16_exact: one answer for all x above 0x10FFFF, and when it is True",
 "C17": "every Boolean identity, not only the listed laws",
 "C18": "addRange returns None on its fast path (refuted); other mutators end in 'return self' by construction of the model; C18_exact: exactly when addRange returns None",
 "C19": "a range object with stop < start is accepted and builds a malformed set (refuted); legal arguments proved",
 "C24": "every value function has a trie; lookup exact for all code points below U+10FFFF and past it; U+10FFFF itself gets the error value (refuted); C24_exact states both for every c >= 0",
 "C25": "false in general (refuted: a request inside the trail surrogates, or a long one that does not start at a multiple of 32, overshoots its limit); exact partition proved for all other requests, termination for all, absence of exceptions for all tries with references in range; C25_exact: for every request the ranges are consecutive, start below the limit, and the last one overshoots by less than 32 (1024 at the trail surrogates); C25_cut: cut off at the limit they are always the partition asked for",
 "C26": "false past one window of 2048 code points (refuted on a well-formed trie); proved for every request inside one window; for requests of any length in the BMP, below or above the surrogates, C26_exact says exactly when the values are right: no window may end before a block that follows 32 equal values and differs from them",
 "C27": "every well-formed layout of either type, including 18-bit index-3 blocks and overlapping data blocks; every function constant from U+40000 on has a trie",
 "C28": "false in general: no request gets past the middle of an index-3 block that is not the null block (C28_middle_never_ends_refuted, every trie), none that touches U+1000..U+FFFF is answered on FAST tries, and no answer reaches past highStart (C28_high_missing_refuted, every trie); repeated non-constant blocks get wrong values. What does hold is exact: C28_answered says for every well-formed layout which requests are answered (if and only if), C28_answers what the answer is - where it ends, when the last range comes twice, and exactly when it agrees with lookup",
 "C29": "all widths, any trailing bytes; also lookup after parsing, and rejection of every truncated file",
 "C30": "all vectors and all tables; every triple of 32 bit words and every shipped code point has such a vector; the column bound check is off by one (refuted)",
 "C31": "all tables; isgraph does not imply isPrint for private use characters (refuted)",
 "C32": "nearest double for every encoding except integers m*10^e with e > 24, where it is false (refuted at 10^25) and right to 15 digits; every shipped character is in the proved range",
 "C33": "CharProps and BidiProps getters; bracket types have no dictionary and are 0, 1 or 2",
 "C34": "surrogates proved; noncharacters proved below U+10FFFF and refuted at U+10FFFF; C34_exact",
 "C35": "false of the code (missing return): refuted at U+0000, exact characterisation and the part that holds proved",
 "C36": "false of the code: refuted, and it is shown to be the general category",
 "C56": "proved below U+10FFFF; U+10FFFF is reported in no block (refuted); C56_exact",
 "C58": "proved for all tables; that the mapping strings are read as UTF-16 text is refuted (units are turned into characters one by one; no shipped mapping is affected)",
 "C59": "with the exact lists of exceptions",
 "C61": "noncharacters proved below U+10FFFF; U+10FFFF itself gets class L (refuted); C61_exact",
 "C64": "integers below -7892 raise IndexError (refuted for all integers, proved for all others)",
 "C67": "the trie is that of C29; the ICU file format is specified in ICUFacts.v and ICUItems.v",
 "C69": "refuted: the bytes are remembered before the table is read, so the next call succeeds with whatever had been loaded; only the empty file fails repeatedly; C69_kept: for every file of bytes, exactly the entries before the first bad one stay known",
 "C47": "all lengths, any padding and context; a padding nibble below 12 is read as the length of a 33rd string, which no name uses",
 "C48": "all sorted tables, all integers; total on every non-empty table, IndexError on the empty one",
 "C49": "all token tables and encodings; the extended choice skips an empty first field",
 "C50": "hexadecimal names unique for all ranges; factored names are mixed radix for all ranges and unique for alternating tables (Hangul shown)",
 "C51": "proved for all tables in which each range contains a whole block of 32 without a group; false without that, and for extended names (both refuted)",
 "C70": "full byte-level round trip of unames.icu inside icudata.dat, then names of code points end to end",
 "C71": "total, unique and exact; 'standard if there is one' is refuted: it is always synthetic",
 "C72": "any number of loads",
 "C52": "Attribute lookup for all elements, and the whole object depends on nothing else.",
 "C53": "Lists of any length; a doubled space raises ValueError.",
 "C73": "The whole object is given field by field. Numeric values: eval is modelled for whole numbers and quotients only.",
 "C74": "Refuted for the simple title case, which CaseProperties.py:24 leaves as text; the other mappings are in C73.",
 "C75": "Refuted for a missing bpb, which is passed to int(); proved for '#', numerals and a missing bmg.; C75_exactly: when there is an object and what it says, for every element; C75_errors: otherwise a ValueError",
 "C76": "Refuted when the attribute is missing (None against the character itself), proved when it is not.; C76_exactly: the copies agree exactly if there is an attribute, and what each is if there is none",
 "C77": "Proved for every range of type 0 and code point text of the width the range prints.",
 "C78": "Code points must be legal (0..0x10FFFF). Second read() proved to be a no-op.",
 "C79": "Refuted for seven constants that a trailing comma turns into one-element tuples (all tuples of the modules are listed in C79_all_tuples); every other constant agrees with the header modules. Three names that the headers do not define are excepted.",
 "C80": "Refuted for five block names and one word break name; all other entries agree. Property aliases generated from different versions of the naming.",
 "C81": "Proved for UCDTypeDictionaries; refuted for Scripts.scriptCodes, where tuple keys repeat names.",
 "C82": "Proved for headers of the listed items, where conditionals do not nest and comments and code share no line but for trailing comments; refuted otherwise (nested conditionals, code after a comment, \"//\" in strings). Termination and a first token on each delivered line hold for all input.",
 "C83": "Proved for one enumerator to a line and one space after #define; refuted for several enumerators on a line, for an enumerator after \"{\" and for enumerations on one line. eval is a parameter of which only eval(str(n)) = n is assumed; an instance is given.",
 "C84": "The only other error is IndexError, for lines without a name: refuted for \"#define  A 1\" and for \"}\" and \";\" on two lines.",
 "C85": "The name must not be the end of a longer name that is declared before, and a scalar must end its line: refuted otherwise. Python and C numerals are compared as text.",
 "C86": "The order of the fields of the C struct is from ICU, which is not in the repository.",
 "C87": "csv.reader is not modelled: the rows are the input. upper() and lower() are ASCII.",
 "C88": "A short name with a quotation mark gives text that is not a Python string: C88_quote_refuted.",
 "C89": "Refuted: an offset in the enumerator makes it read wrong blocks. Proved that the ranges partition all code points and are right exactly outside explicit lists; script, block and width raise IndexError; the normalisation trie (fast type) is never enumerated to the end.",
 "C90": "Evaluation of the text is by a reader of list displays of hexadecimal numbers in UnicodeSetText.v.",
 "C91": "ArgumentIterator is not in the repository: what it accepts as a value is a parameter.",
 "C92": "\\w, upper and lower are compared for ASCII only, which is what the model has of them.",
 "C93": "Unconditional apart from the encoding; semicolon inside a token refuted.",
 "C94": "C94_split_partial is the split at semicolons without quotation marks; C94_split_refuted shows that it fails with them.",
 "C95": "C95_atomic_refuted, C95_license_refuted, C95_same_refuted and C95_version_refuted show what fails; the rest is proved in full.",
 "C96": "C96_data_refuted and C96_directory_refuted show what fails without the directories; the rest is proved in full.",
 "C97": "C97_parent_refuted: the parent of '.' is '.' itself, so the license is looked for in the wrong place.",
 "C98": "Exact for all code point arguments, including the one-element ranges for which C10 is refuted. Integers outside Unicode are refuted: they are not rejected.",
 "C99": "C99_bidi, C99_char, C99_caseProps, C99_headers, C99_dictionaries, C99_copies. The texts are given independently of heading, partsLines and the plan of C95; they use arrayToPython and the like, whose results C82 to C88 specify.",
 "C100": "The data files of the model no longer rest on a script outside Coq, except for the text itself (tools/gen_text.py copies lines).",
 "C101": "C101_bidi, C101_charProps, C101_caseProps, C101_version. Octal numerals and numerals with a suffix, which C has and Python has not, are refuted: the module is not valid Python (C101_numerals_refuted).",
 "C102": "C102_header, C102_build; C102_eval: the modelled reader is an eval as required. Refuted: numerals with a suffix, casts, uses of ignored macros (the module cannot be imported; C102_values_refuted) and enumerators that use names from outside their enumeration (C102_names_refuted). C102_names, C102_other_names and C102_lists: which characters make a name that is read, and that any expressions with commas between them are read.",
 "C103": "An inert character can be part of a decomposition of another one (C103_parts_refuted).",
 "C104": "Names are written without escaping: a quotation mark in a short name makes the module unreadable, and a hyphen in a long name becomes a subtraction (C104_names_refuted).",
 "C105": "The argument iterator (FontDocTools) is not in the repository: which values it accepts and the text of its error are parameters.",
 "C106": "The character, case and bidi data are the shipped ones; the layout properties, names and the three normalizers are parameters (C106_results takes the shipped nfc for the first). Decoded mappings are the record's fields, which C53 and C73 determine from the attributes.",
 "C107": "Proved for every program of which the specification says something (C107_programs, C107_errors). It is silent on arguments outside Unicode, on a loop that changes the set it runs over (refuted: IndexError, members met twice or missed), on range steps other than 1 (refuted: ignored) and on the answers that depend on how a set was made (C11, C15, C18). == with another type raises AttributeError and the empty set counts as true (refuted).; C107_conditions and C107_ranges: which branch an if takes and what a range has in it; C107_numbers: what range(a, b, step) and a + k are, True counting as 1",
 "C108": "false at U+10FFFF and for negative integers (refuted); what every integer outside 0..0x10FFFE gets is proved for every trie, and spelled out per getter for the shipped tables",
 "C46": "C46_exactly: a file of bytes is read without an exception exactly if it has such a table",
 "C109": "proved for all code points of the shipped tables",
 "C110": "proved for all code points of the shipped tables",
 "C111": "proved for all code points of the shipped tables; U+10FFFF is no noncharacter to the library (C108), and has the values of an ordinary unassigned code point",
 "C112": "refuted; C112_kept says for every file what is kept and what every later call answers; C112_same: without a bad element this model and that of C78 agree; C112_indexes: filling the indexes never raises, so an exception of read names a bad element",
 "C113": "Over every decomposition of the shipped data, from the run lists of the tries; exceptions are part of the statement.",
 "C114": "By induction over the text from a check of every decomposition.",
 "C115": "Over the run list of the case trie; exceptions are part of the statement.",
 "C116": "By induction over the text from a check of every code point with case data.",
 "C117": "Over the run list of the bidi trie and the list of all decompositions; texts by induction.",
 "C118": "Over the run list of the props trie; numbers by induction.",
 "C119": "C119_same, C119_prefix, C119_extends for all tries and functions; the shipped vectors give wrong values before the error (C119_script_refuted, C119_width_refuted, with the exact lists)",
 "C120": "C120_search, C120_add (with the converse: only the empty list makes add raise), C120_adds",
 "C121": "C121_every, C121_stuck; C121_same: the generator with its yields agrees with the model of C28, C121_grows: ranges once yielded stay; C121_nfc: the shipped normalisation data gives 932 right ranges up to U+0FC6 and then nothing for ever",
 "C122": "C122_utf8, C122_back, C122_ascii: the codecs; C122_build, C122_build_texts: the build of bytes against the build of texts; C122_import, C122_install. The whole file is decoded before its text is used",
 "C123": "C123_encode: no UnicodeEncodeError; C123_locale: ASCII sources; C123_locale_matters: the case in which the encoding matters (the source is valid in both)",
 "C124": "C124_collect: the members; C124_ranges: the ranges; C124_utrie2, C124_cptrie: against lookups; C124_category: the shipped data, with the listed exceptions of C89",
 "C125": "C125_rebuild: members; C125_equal: ==; C125_contains_range; C125_ranges: shape of the ranges",
 "C126": "C126_sorted, C126_order: code points; C126_ranges: ranges; C126_copies: against C125",
 "C127": "C127_sizes, C127_complement, C127_subset, C127_index, C127_add for all sets that can be built; C127_collected, C127_partition, C127_category for enumerations",
 "C128": "C128_empty, C128_equal, C128_disjoint, C128_range, C128_single; the example shows sets for which the direct calls answer differently",
 "C129": "C129_piecewise, C129_sets for any trie; C129_shipped, C129_category for the shipped ones. U+10FFFF is left out because get has the error value there (C24).",
 "C130": "C130_last for all sequences; C130_undo, C130_independent.",
 "C131": "C131_runs, C131_fewest, C131_operations."
}