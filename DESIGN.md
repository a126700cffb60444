# Formal model of ermader/UnicodeData in Rocq

## Approach

* The Python functions are modelled one by one as total, computable Gallina functions over `Z` (Python's
  unbounded integers; `Z.land`, `Z.shiftr`, `Z.modulo` agree with Python on negative numbers too).
* Exceptions are values: `res A := Ok a | Err e` with `IndexError`, `TypeError`, ...  Unbounded `while`
  loops take fuel and return `Err OutOfFuel` when it runs out; theorems say that this does not happen.
* Python negative list indices are modelled (`py_get`).
* A `str` is a list of code points, a `dict` an association list in insertion order, `bytes` a list of integers.
* Mutable objects: UnicodeSet operations are functions from the old list to the new list, and, for histories and
  aliasing, an explicit heap of list objects. Objects that load data (`CharNames`, `ICUDataFile`) are state records
  threaded through the calls.
* Generators are modelled as the list of what they yield (fuelled, see above).
* The shipped tables (`CharPropsData.py`, `BidiPropsData.py`, `CasePropsData.py`, `Norm2NFCData.py`) are translated
  textually to Coq lists by `tools/gen_data.py`, the modules of constants by `tools/gen_modules.py`; the generated
  `Data_*.v` files are committed. No repository code is run: the generators parse the text of the files.
* `icudata.dat` and `ucd.nounihan.grouped.xml` are not part of the repository; the code reading them is modelled over
  arbitrary bytes and arbitrary elements.
* Theorem statements live in `Prop_*.v`, small independent specifications in `Spec*.v` or beside the statement; every
  property theorem is closed by `exact` of a lemma (or a few lines) and followed by `Print Assumptions`; an `Example`
  beside it shows a concrete case meeting its hypotheses.
* Where the code violates the property, a theorem with suffix `_refuted` gives a witness, and `_partial`
  gives the exact domain on which the property holds.
* `tools/mutate.py` edits one definition in a scratch copy, rebuilds it, replaces each lemma that no longer proves by an
  admitted one and reports the property theorems that then rest on it. Results are in `seeded/LOG.jsonl`.

## Trusted base

* Coq 8.16.1's kernel, including the virtual machine used by `vm_compute` and `vm_cast_no_check`.
* The hand translation of Python to Gallina (each definition cites the lines it models), and the copying of the text of the data modules.
* `Print Assumptions` is "Closed under the global context" for every theorem: no axiom is used, not even one of the
  standard library. `Coq.Floats.SpecFloat` (used for `float`) is a plain Gallina model of binary64, without axioms.

Assumptions about the execution environment:

* `struct.unpack` with native format is taken on a little-endian host with 2-byte `H` and 4-byte `I`/`i` (Bytes.v).
* fontTools' `sstruct.unpack2` is taken to decode its format as documented (ICUDataFile.v).
* `int(text)` is modelled for ASCII digits, underscores and blanks; `\w`, `isupper`, `lower` and friends of
  `module_builder` for ASCII letters (PyStr.v, PyText.v).
* `eval` is a parameter where its argument comes from outside (UCD.v), and restricted to names, numerals and simple
  integer expressions in the header translator (HeaderFile.v); C102 holds for every eval that gives such expressions their
  values, and PyEval.v models one.
* Attribute values of an XML element are what `xml.etree` delivers; parsing XML itself is not modelled.

The tables of the model (Data_*.v) are generated from the repository, but not trusted: Prop_Text.v (C100) shows that the reader
of PyParse.v finds the same tables in the text of the modules, which Data_Text.v copies. What is trusted there is the copying of
lines (tools/gen_text.py) and that PyParse.v reads the text as Python does.

Errors of the model found by proofs, and repaired: the lines of a header were once taken without their line ends, so that an
empty line was mistaken for the end of the file (`nextLoop` compares `readline()` with the empty string); C102's example showed
it, and C99_lines now states what the lines are.

Validation of the model: `RepoTests.v` runs the repository's own tests on the model, as far as they need no file that
the repository does not have; the model passes all of them.

## Modelled code

| Python file | Model | Not modelled |
| --- | --- | --- |
| `UnicodeSet.py` | `UnicodeSet.v`, `UnicodeSetHeap.v`, `UnicodeSetText.v`, as used by a program `SetProgram.v` | `dump` (prints `__str__`) |
| `Utilities.py` | `Utilities.v` | |
| `Utrie2.py` | `UTrie2.v`, as a generator that may raise `UTrie2Lazy.v` | |
| `CPTrie.py` | `CPTrie.v`, `CPTrieBinary.v`, as a generator that may raise or loop `CPTrieLazy.v` | |
| `CharProps.py` (with `CharPropsData.py`) | `CharProps.v`, `Data_CharProps.v` |  |
| `CaseProps.py` (with `CasePropsData.py`) | `CaseProps.v`, `Data_Case.v` | |
| `BidiProps.py` (with `BidiPropsData.py`) | `BidiProps.v`, `Data_Bidi.v` | |
| `Normalizer2.py` (with `Norm2NFCData.py`) | `Normalizer2.v`, `Normalizer2File.v`, `Data_NFC.v` | |
| `LayoutProps.py` | `Normalizer2File.v` | |
| `ICUDataFile.py` | `ICUDataFile.v` | opening the file |
| `CharNames.py` | `CharNames.v` |  |
| `UCDProperties.py`, `BidiProperties.py`, `BinaryProperties.py`, `CaseProperties.py`, `DecompProperties.py`, `IndicProperties.py`, `CharacterData.py` | `UCD.v` | |
| `tests/UnicodeCharacterData.py` | `UCDIndex.v`, `Prop_IndexKept.v` (what a failed read leaves) | opening the zip file, XML parsing (the `ucd:char` elements are given) |
| `uchar_h.py`, `uprops_h.py`, `ucase_h.py`, `uscript_h.py`, `GeneralCategories.py`, `CharDirection.py`, `Blocks.py`, `Scripts.py`, `Boundaries.py`, `EastAsianWidth.py`, `JoiningTypesAndGroups.py`, `DecompositionType.py`, `LayoutTypes.py`, `UCDTypeDictionaries.py`, `Characters.py`, `UnicodeVersion.py` | `PyModule.v`, `Data_Modules.v`, `Data_Names.v` | |
| `module_builder/HeaderToPtyhon.py` | `HeaderFile.v`, file input and output in `Build.v`, encodings in `TextCodec.v` | dates (a parameter) |
| `module_builder/ModuleBuilder.py` (class `ModuleBuilder`) | `ModuleBuilder.v`, class `ModuleBuilderArgs` in `BuilderArgs.v`, `build` in `Build.v`, encodings in `TextCodec.v`, command line and messages in `BuilderMain.v` | dates (a parameter), links, permissions, `ArgumentIterator` (not in the repository) |
| `module_builder/UCDReader.py` | `ModuleBuilder.v`, `csv.reader` in `CsvReader.v`, files in `Build.v` | dates (a parameter) |
| `module_builder/ModuleInstaller.py` | `Build.v`, command line in `BuilderMain.v` | modes and times of the files, links |
| `setup.py` | | all |
| `tests/test_*.py`, `EnumeratorTests.py` | expectations in `Data_Tests.v` (by `tools/gen_tests.py`), checked on the model in `RepoTests.v`; `test_exhaustive.py` as a program in `Exhaustive.v` | tests needing files that are not in the repository |

## Where the code disagrees with the property

Each has a `_refuted` theorem with a witness; the list is for orientation.

* UnicodeSet: one-element `removeRange`/`retainRange`/`complementRange` and `remove(x)`/`retain(x)`/`complement(x)` do
  nothing; `==` distinguishes equal sets after a union; `contains(0x110000)`; `addRange` may return None.
* Tries: `UTrie2.get(0x10FFFF)` is the error value, so U+10FFFF has no block, is no noncharacter and has bidi class L;
  enumeration can overshoot or merge across windows; `CPTrie.enumerator` may never end; enumerating the shipped tries with default arguments gives wrong values, IndexError or no end (C89).
* CharProps: `isIDIgnorable` omits the ignorable controls, `getNumericType` reports a value, `isgraph`/`isPrint` differ on
  categories, numeric values of the form 10^25 and beyond are rounded, the column bound of the property vectors.
* CaseProps: full mappings are lists of UTF-16 units.
* Normalizer2: integers below -7892 raise IndexError.
* ICUDataFile: after a failed load the object counts as loaded. `import Normalizer2`, `CharNames` and `LayoutProps` need a
  data file that is not in the repository.
* CharNames: the iterator may skip ranges, a padding nibble is read as a 33rd length, extended names of the iterator differ.
* UCD classes: simple title case is left as text, a missing `bpb` raises ValueError, two copies of NFKC_CF can differ; a failed
  `read` is followed by reads that succeed with a part of the file (C112).
* Constants: some are tuples because of a trailing comma; some copies of dictionaries differ.
* module_builder: nested conditionals, code after a comment, `//` in strings, several enumerators on a line,
  `#define  A` with two blanks, array names that are suffixes of others, unescaped quotes; a quotation mark at the front of a field of
  ppucd.txt swallows lines; a failed build leaves new and old outputs together; the license is not found when the source
  directory is `.`; a missing version is written as None; `install` without the directory Data loses the data file.

## Properties

* **C01 Union is set union** - UnicodeSet.v models _addList with the polarity machine; invariant over the merge loop (buffer/open range/remaining suffixes) gives membership; Prop_UnicodeSet.v.
* **C02 Intersection is set intersection** - Same; parity invariant of _retainList for polarity 0.
* **C03 Difference is set difference** - Same with polarity 2.
* **C04 Symmetric difference is exclusive or** - Parity invariant of _exclusiveOrList.
* **C05 complement() is set complement** - Parity of the list with/without a leading 0.
* **C06 add inserts exactly one code point** - Binary search correctness plus parity of the edited list.
* **C07 addRange inserts exactly the inclusive range** - Fast path / merge path case analysis. 
* **C08 Range removal, retention and complementation** - Reduction to retain/xor with a three element list; start == end is a no-op in the code, so the full statement is refuted and the guarded one proved. `C08_exact` says what every pair of code points gives.
* **C09 Single code point remove, retain and complement** - The code is a no-op: refuted, and the exact behaviour proved.
* **C10 Any history of calls behaves like a store of mathematical sets** - Heap model (objects -> list objects) with commands; simulation with a store of mathematical sets by induction over the history.
* **C11 Equality is extensional** - Canonical (strictly sorted) lists are unique representatives; refuted for the general API, proved for the canonical fragment. `C11_exact`: equality of the listed ranges and of the answer for 0x110000.
* **C12 Iteration and size** - Sortedness invariant gives ascending enumeration.
* **C13 charAt and indexOf are inverse and follow iteration order** - Induction over the ranges.
* **C14 Range views describe the set** - Induction over the ranges.
* **C15 contains(range) means all of the range** - Proved for canonical sets and non-empty ranges, refuted otherwise. `C15_exact`: one listed range has the whole range in it.
* **C16 contains on arbitrary integers** - Termination for all integers; refuted for x >= 0x110000, proved for x < 0x110000. `C16_exact`: the answer above 0x10FFFF is one for all integers.
* **C17 Algebraic laws of the set operators** - Corollaries of C01-C05.
* **C18 Mutators return self** - Return value modelled; refuted for addRange, proved for the others. `C18_exact`: exactly when None is returned.
* **C19 Constructors build the set they describe** - Direct, with the malformed-list cases refuted.
* **C20 Surrogate pair conversion is a bijection** - Arithmetic over Z, bit masks removed by Z.land/shift lemmas.
* **C21 Surrogate and noncharacter classification** - Arithmetic over Z.
* **C22 arithmeticShift sign-extends the top field** - Arithmetic over Z, induction-free, all widths.
* **C23 highBit is the position of the highest set bit** - Case analysis on the six steps.
* **C24 UTrie2 lookup returns the stored value** - Independent builder of a trie from any function; lookup of built trie = function; U+10FFFF refuted.
* **C25 UTrie2 enumeration is a partition** - Loop invariant of the generator for arbitrary tries.
* **C26 UTrie2 enumeration agrees with lookup** - Proved inside one 2048 window; refuted across windows; in the BMP, below or above the surrogates, C26_exact says exactly which requests of any length are right.
* **C27 CPTrie lookup returns the stored value** - Builder/encoder specification for both types.
* **C28 CPTrie enumeration terminates, partitions and agrees with lookup** - Refuted (non-termination as a loop fixpoint; wrong ranges), and made exact: which requests are answered (if and only if), where the answer ends, when the last range is doubled, and exactly when it agrees with lookup (Prop_CPExact.v).
* **C29 CPTrie binary format round-trip** - Byte-level encoder, decoder(encoder t ++ junk) = t.
* **C30 Property vector fields do not interfere** - Bit-field packing lemma over Z.
* **C31 Category predicates mean their documented categories** - Masks against explicit category lists, all 30 categories x all characters.
* **C32 Numeric values decode to what was encoded** - Encoder specification over rationals, all ranges of the code.
* **C33 Property getters are total on Unicode** - Data tables translated to Coq; lifted from per-entry checks over the arrays by a lemma on lookup.
* **C34 Noncharacter and surrogate data agree with arithmetic** - Block-wise finite check over the shipped tables, lifted to all code points.
* **C35 isIDIgnorable covers ignorable ISO controls** - Refuted on the shipped data; exact behaviour proved.
* **C36 getNumericType reports the numeric type** - Refuted.
* **C37 Case exception slots return what was stored** - Encoder of an exception record, induction over slots.
* **C38 Simple case mappings are valid, idempotent and consistent** - Block-wise check over the shipped tables lifted to all code points.
* **C39 Full case mappings are valid and extend the simple ones** - Same.
* **C40 Case mapping of ASCII** - Same.
* **C41 Bidi mirroring is an involution** - Same.
* **C42 Paired brackets pair** - Same.
* **C43 Hangul decomposition is the Unicode algorithm** - Arithmetic over Z.
* **C44 Mapping strings decode UTF-16** - Induction over the code point list.
* **C45 Full decomposition is the closure of raw decomposition** - Block-wise check over the shipped NFC table lifted to all code points.
* **C46 ICU data file table of contents** - Byte-level encoder of the table of contents.
* **C47 Group string lengths decode** - Nibble encoder, induction over lengths.
* **C48 Group search finds exactly the covering group** - Binary search invariant.
* **C49 Token expansion decodes names** - Induction over the encoded name.
* **C50 Algorithmic names are unique** - Hex digits injectivity, mixed radix.
* **C51 Name iteration and lookup by name agree with getCharName** - Abstract name tables; generator modelled as list.
* **C52 UCD attribute lookup falls back to the group** - Attribute maps as association lists.
* **C53 Code point list attributes decode** - Hex parser/printer round trip.
* **C54 Printed code lists can be read back** - Induction over the list and its hex numerals.
* **C55 Shipped character properties fit together** - Run-length view of the tables (Runs.v), one check per run.
* **C56 Blocks are ranges of whole columns** - Same.
* **C57 Predicates mixing categories and code point ranges** - Case analysis for all tables.
* **C58 Case mappings follow the stored case information** - For all tables, from the trie word and exception record.
* **C59 Case round trips** - Run-length check over the shipped tables.
* **C60 Bidi getters follow the stored words and tables** - For all tables.
* **C61 Shipped bidi properties fit together** - Run-length check.
* **C62 Mapping entries are read back** - Encoder of mapping entries, for all entries.
* **C63 Other values and the constructor** - For all tables.
* **C64 Shipped decompositions are well formed** - Check over the runs of the NFC trie.
* **C65 Raw decomposition pairs are unique** - Sorted table of pairs, strict order gives injectivity.
* **C66 Decompositions agree with the decomposition type** - Joint runs of the NFC trie and the property vectors.
* **C67 Normalisation data read from the data file** - Byte-level encoder of the item, for all contents.
* **C68 Layout properties read from the data file** - Same.
* **C69 A failed load is not mistaken for a loaded file** - Refuted; exact state after each load proved.
* **C70 Names file read back** - Byte-level encoder of unames.icu.
* **C71 Extended names are total and unique** - Hex injectivity and category names.
* **C72 Loading names again changes no name** - State of the loader before and after.
* **C73 A CharacterData object has every attribute in its place** - The whole record against the attribute list.
* **C74 Every case mapping of CaseProperties is decoded** - Refuted for simple title case; proved for the others.
* **C75 Missing bidi mappings mean the character itself** - Refuted for the paired bracket; proved for mirroring.
* **C76 The two copies of NFKC_Casefold agree** - Proved when present, refuted when missing.
* **C77 Names with a code point agree with the algorithmic names** - Hex facts.
* **C78 The index holds exactly the characters with each property** - Invariant of the reading loop over all files.
* **C79 The hand-written constants are those of the ICU headers** - Comparison of whole modules.
* **C80 The two copies of each name dictionary agree** - Same.
* **C81 Names of property values are one to one and complete** - Same.
* **C82 The header reader delivers exactly the code** - Grammar of header items; induction over the items.
* **C83 The translated header has the values of the C header** - Declarations with C values; induction over enumerators.
* **C84 The translation of a header ends without an error of its own** - Same grammar.
* **C85 Arrays and scalars of C files become the same Python values** - Printed initialiser lists of any length.
* **C86 The fields of a UTrie2 are taken from their places** - Printed struct initialiser.
* **C87 UCDReader collects exactly the values of each property** - Induction over the rows.
* **C88 The generated dictionaries are what Python reads back** - Printer/reader round trip.
* **C89 Enumerating a shipped trie tells the value of every code point** - Refuted; enumeration computed and compared range by range, lifted to all code points.
* **C90 The text of a UnicodeSet determines the set** - Printer/reader round trip.
* **C91 The command line of the module builder** - Induction over the arguments.
* **C92 Python's text functions and the shipped tables agree on characters** - Joint runs of two tries, lifted to all code points.
* **C93 Each name choice reads its own field** - C93 the fields of a line are specified as a list of encoded names; the choice selects one by number, from expandName and from the bytes of the file. Refuted when the second byte of a token is a semicolon.
* **C94 ppucd.txt is read as the records written in it** - C94: csv.reader over ppucd.txt (CsvReader.v): round trip of any records, errors, lines without quotation marks; a field beginning with a quotation mark swallows lines (refuted).
* **C95 build makes its eleven outputs from the inputs, in order, and touches nothing else** - the commands of build over a file system (Build.v), with errors that leave the files as they are at that point; the plan of outputs is a list of functions of the initial inputs, and the build carries out a prefix of it. Frame for all other files, idempotence, versions.
* **C96 install puts the built files where the package looks for them** - glob and shutil.copy2 over the file system of Build.v; the composition with C95 gives the contents of the package.
* **C97 Paths given as text name the files the user means** - paths: equations that determine the meaning of each text
* **C98 Every history of UnicodeSet calls, with every observation afterwards** - the heap refinement of C10 extended by the calls that do nothing, with the invariant that every list object in memory is a built set
* **C99 What the built modules say** - Prop_Outputs.v: the contents of every output of the build, as texts.
* **C100 The tables of the model are what Python reads in the files** - PyParse.v reads the text of Python modules of constants; Data_Text.v has the text of the modules; Prop_Text.v shows that the tables of the model are what is read.
* **C101 The built data modules have the numbers of the C source** - ParseFacts.v and Prop_Values.v: from the C source through the written text to the values Python reads in it.
* **C102 The built header modules have the values of the C header** - ExprFacts.v gives expressions their meaning independently of the reader; HeaderValues.v and Prop_HeaderValues.v follow them from the header through the written text to what Python reads. Prop_Grammar.v says which names and lists the reader accepts, without using its own tests of characters.
* **C103 What the value predicates of Normalizer2 say about characters** - Prop_NormValues.v: one check per run of the trie, lifted to all code points; the kinds are stated by code points as in the Unicode Standard.
* **C104 Importing the built UCDTypeDictionaries gives the names of the source tree** - Prop_Dictionaries.v over DictFacts.v: the text of C99 is read token by token, then run; joined with C102 for the constants.
* **C105 What the two programs say and do for every command line** - Prop_BuilderMain.v over BuilderMain.v: a parser with the message texts, proved to agree with C91's, and characterised by an inductive relation on the command line.
* **C106 What the exhaustive test tells** - Prop_Exhaustive.v over Exhaustive.v and ExhaustiveFacts.v: an inversion of the record constructor gives the compared fields as attributes; the loader keeps what was read before a failure.
* **C107 Programs with UnicodeSet objects do what they say** - `SetLanguage.v` has the syntax and Python's part, `SetProgram.v` the code's part on the heap of `UnicodeSetHeap.v` (argument types as the methods test them, the generator of `__iter__` reading `self.list` again for each range), `SpecProgram.v` the same programs on mathematical sets with `Silent` where nothing is claimed. `C107_programs` is a simulation by induction on the program; a loop keeps the list of its set because the calls of the body leave it alone (`frame_call`). Prop_SetValues.v states numbers and ranges on their own.
* **C108 Integers that are no code points, and the last code point** - `get` on any integer of any trie (C108_any_trie_partial); every getter of CharProps, BidiProps and CaseProps at and above U+10FFFF; IndexError far below; refutations at U+10FFFF and for negative integers. Prop_OtherInts.v also holds C24_exact, C26_exact (requests of any length in the BMP below or above the surrogates), C34_exact, C56_exact and C61_exact.
* **C109 Text boundary values are those of UAX #29** - Each property is given by a decision list in SpecChar.v that does not mention the tables; MasterRuns.v merges the runs of the four shipped tries (properties, vectors, case, bidi) and checks a statement on every run, code point by code point where a run meets an exception list; C109_total says the library describes every code point in exactly one way.
* **C110 Derived properties follow from the properties they are derived from** - C110_derived and C110_layout, checked on the merged runs as C109.
* **C111 Unassigned code points have the default values** - C111_unassigned, checked on the merged runs as C109.
* **C112 A failed read of the UCD file is not followed by a successful one** - Prop_IndexKept.v keeps the state that UCDIndex.read drops on an exception.
* **C113 A character and its canonical decomposition are treated alike** - C113 relates the NFC data to the character and direction data: boundary values, identifiers, kind.
* **C114 Changing case and decomposing can be done in either order** - C114 composes CaseProps with Normalizer2 on texts of any length.
* **C115 Changing case changes only the case** - C115 relates CaseProps to CharProps and BidiProps; the identifiers by induction over the text.
* **C116 Upper case of lower case is a key for caseless comparison** - C116 composes the full case mappings on texts of any length.
* **C117 Mirror images and paired brackets fit the other properties and canonical equivalence** - C117 relates BidiProps to CharProps and Normalizer2; the partner of a text and its decomposition commute by induction over the text, using that partners are involutions.
* **C118 Decimal digits stand in rows of ten, and numbers written with them are read back** - C118 rows over the run list of the props trie; numbers by induction over their size.
* **C119 What a consumer of an enumeration has before an exception** - C119 UTrie2Lazy.v keeps the state of the generator when it raises; simulation between two value functions.
* **C120 A search in a set reads a logarithmic number of entries, and add cannot fail** - C120 induction on the exponent of two that bounds the interval.
* **C121 A CPTrie enumeration that is not answered raises AssertionError or loops for ever, after a known prefix** - C121 the generator is modelled with the ranges already yielded (CPTrieLazy.v); a limit at the end of a block makes no difference before it, so the run up to the obstacle is that of the answered request (CPTrieStuck.v).
* **C122 Building and installing files of bytes, in any encoding of the locale** - C122 the build on bytes (TextCodec.v) simulates the build on texts (Build.v), command by command (TextFilesFacts.v); UTF-8 is modelled after CPython's decoder and compared with the standard's table.
* **C123 The builder can encode what it writes, and when the encoding of the locale matters** - C123 every function from text to text of the builder keeps a class of characters that has all of ASCII (TextMade.v, one lemma for each); two builds in two encodings then go side by side (Prop_Encodings.v).
* **C124 Sets collected from enumerations** - C124 the loop keeps [clean] and the set of the ranges so far; the boundaries of the kept ranges form the canonical list of the set (Prop_Collect.v).
* **C125 Adding the ranges of a set to an empty one repairs it** - C125 an instance of C124 for the ranges of a set (Prop_Rebuild.v).
* **C126 Sets do not depend on the order of additions** - C126 the loops stay [clean], where the list is determined by the members (Prop_SetOrder.v).
* **C127 The sizes of sets add up** - Prop_Counting.v counts the lists of the iterator (C12) as parts without common members; Prop_CountRuns.v counts the runs of a partition and joins this with C124.
* **C128 Reliable replacements for the calls that fail** - from C02-C04, C19 and the count of members of C127 (Prop_SetIdioms.v).
* **C129 Enumerating 2048 code points at a time gives every value right** - the pieces are single windows, for which C26 is proved; joined in Prop_Windows.v. The conditions on the shipped tries are checked by computation (`usable`).
* **C130 The last change that concerns a code point decides** - each call is described by the code points it puts in and takes out, in terms of contains; induction over the calls in Prop_LastChange.v.
* **C131 A set copied range by range has the fewest ranges, and operations need few** - runs are described by contains alone (`begins`, `ended`); each run of the result begins where a range of an operand begins or has ended; counted with NoDup_incl_length in Prop_RangeCounts.v.
