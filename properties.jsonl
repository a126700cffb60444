{"id": "C01", "title": "Union is set union", "statement": "For all sets A and B built through the API and every code point c: after A.addAll(B) (also A|=B), and in A.union(B) (also A|B), c is contained iff c was contained in A or in B. The call always terminates, never raises, and B is unchanged.", "quantifier": "all reachable pairs of sets, all code points 0..0x10FFFF", "why_tests_cant": "There are 2^1114112 sets; the repository's exhaustive test covers only subsets of seven code points.", "anchors": ["UnicodeData/UnicodeSet.py:UnicodeSet._addList", "UnicodeData/UnicodeSet.py:UnicodeSet.addAll", "UnicodeData/UnicodeSet.py:UnicodeSet.union", "UnicodeData/UnicodeSet.py:UnicodeSet.contains"]}
{"id": "C02", "title": "Intersection is set intersection", "statement": "For all sets A and B built through the API and every code point c: after A.retainAll(B), and in A.intersection(B), c is contained iff c was contained in both A and B; the call terminates and never raises.", "quantifier": "all reachable pairs of sets, all code points", "why_tests_cant": "There are 2^1114112 sets; the repository's exhaustive test covers only subsets of seven code points.", "anchors": ["UnicodeData/UnicodeSet.py:UnicodeSet._retainList", "UnicodeData/UnicodeSet.py:UnicodeSet.retainAll", "UnicodeData/UnicodeSet.py:UnicodeSet.intersection"]}
{"id": "C03", "title": "Difference is set difference", "statement": "For all sets A and B built through the API and every code point c: after A.removeAll(B), and in A.difference(B), c is contained iff it was in A and not in B; the call terminates and never raises.", "quantifier": "all reachable pairs of sets, all code points", "why_tests_cant": "There are 2^1114112 sets; the repository's exhaustive test covers only subsets of seven code points.", "anchors": ["UnicodeData/UnicodeSet.py:UnicodeSet._retainList", "UnicodeData/UnicodeSet.py:UnicodeSet.removeAll", "UnicodeData/UnicodeSet.py:UnicodeSet.difference"]}
{"id": "C04", "title": "Symmetric difference is exclusive or", "statement": "For all sets A and B built through the API and every code point c: after A.complementAll(B), and in A.symmetric_difference(B), c is contained iff it was in exactly one of A, B; the call terminates and never raises.", "quantifier": "all reachable pairs of sets, all code points", "why_tests_cant": "There are 2^1114112 sets; the repository's exhaustive test covers only subsets of seven code points.", "anchors": ["UnicodeData/UnicodeSet.py:UnicodeSet._exclusiveOrList", "UnicodeData/UnicodeSet.py:UnicodeSet.complementAll", "UnicodeData/UnicodeSet.py:UnicodeSet.symmetric_difference"]}
{"id": "C05", "title": "complement() is set complement", "statement": "For every reachable set and every code point c, after complement() c is contained iff it was not contained before; applying complement() twice restores the membership of every code point.", "quantifier": "all reachable sets, all code points", "why_tests_cant": "There are 2^1114112 sets; the repository's exhaustive test covers only subsets of seven code points.", "anchors": ["UnicodeData/UnicodeSet.py:UnicodeSet.complement"]}
{"id": "C06", "title": "add inserts exactly one code point", "statement": "For every reachable set s and all code points x, c: after s.add(x), c is contained iff c was contained or c = x. Adding an element that is present changes nothing.", "quantifier": "all reachable sets, all pairs of code points", "why_tests_cant": "There are 2^1114112 sets; the repository's exhaustive test covers only subsets of seven code points.", "anchors": ["UnicodeData/UnicodeSet.py:UnicodeSet.add", "UnicodeData/UnicodeSet.py:UnicodeSet._findCodePoint"]}
{"id": "C07", "title": "addRange inserts exactly the inclusive range", "statement": "For every reachable set s, all legal start <= end and every c: after s.addRange(start,end), c is contained iff it was contained or start <= c <= end.", "quantifier": "all reachable sets, all legal ranges, all code points", "why_tests_cant": "Fast path, merge path and end-of-Unicode path depend on the whole list; tests reach a handful of shapes.", "anchors": ["UnicodeData/UnicodeSet.py:UnicodeSet.addRange"]}
{"id": "C08", "title": "Range removal, retention and complementation", "statement": "For every reachable set s, all legal start <= end and every c: removeRange removes exactly start..end, retainRange keeps exactly start..end, complementRange flips exactly start..end (end < start leaves the set unchanged).", "quantifier": "all reachable sets, all legal ranges, all code points", "why_tests_cant": "Quadratically many ranges against every set; boundary cases such as start == end are not tested.", "anchors": ["UnicodeData/UnicodeSet.py:UnicodeSet.removeRange", "UnicodeData/UnicodeSet.py:UnicodeSet.retainRange", "UnicodeData/UnicodeSet.py:UnicodeSet.complementRange"]}
{"id": "C09", "title": "Single code point remove, retain and complement", "statement": "After s.remove(x) the code point x is not in s and nothing else changed; after s.retain(x) only x can remain; after s.complement(x) exactly x is flipped.", "quantifier": "all reachable sets, all code points", "why_tests_cant": "Needs every set; the test suite never calls these methods.", "anchors": ["UnicodeData/UnicodeSet.py:UnicodeSet.remove", "UnicodeData/UnicodeSet.py:UnicodeSet.retain", "UnicodeData/UnicodeSet.py:UnicodeSet.complement"]}
{"id": "C10", "title": "Any history of calls behaves like a store of mathematical sets", "statement": "For any sequence of legal API calls on any number of sets: no call raises or loops, each contains(c) answer equals the one given by a store of mathematical sets running the same history, operands other than the receiver are never changed, and copies never share state with their source.", "quantifier": "all finite histories of API calls over any number of sets", "why_tests_cant": "Histories are unbounded and aliasing bugs need particular interleavings of calls on several objects.", "anchors": ["UnicodeData/UnicodeSet.py:UnicodeSet"]}
{"id": "C11", "title": "Equality is extensional", "statement": "For all sets A, B built through the API, A == B iff A and B contain the same code points (and A != B is its negation).", "quantifier": "all reachable pairs of sets", "why_tests_cant": "Depends on canonical form being preserved by every operation in every history.", "anchors": ["UnicodeData/UnicodeSet.py:UnicodeSet.__eq__", "UnicodeData/UnicodeSet.py:UnicodeSet.__ne__", "UnicodeData/UnicodeSet.py:UnicodeSet._addList", "UnicodeData/UnicodeSet.py:UnicodeSet.__init__"]}
{"id": "C12", "title": "Iteration and size", "statement": "For every reachable set, iterating yields exactly the contained code points, each once, in ascending order, and size() is the number of code points yielded.", "quantifier": "all reachable sets", "why_tests_cant": "There are 2^1114112 sets; the repository's exhaustive test covers only subsets of seven code points.", "anchors": ["UnicodeData/UnicodeSet.py:UnicodeSet.__iter__", "UnicodeData/UnicodeSet.py:UnicodeSet.size"]}
{"id": "C13", "title": "charAt and indexOf are inverse and follow iteration order", "statement": "For every reachable set: charAt(i) is the i-th element of the iteration, None if i < 0 or i >= size(); indexOf(c) is the position of c in the iteration, None for non-members; hence indexOf(charAt(i)) = i and charAt(indexOf(c)) = c.", "quantifier": "all reachable sets, all integers i and c", "why_tests_cant": "There are 2^1114112 sets; the repository's exhaustive test covers only subsets of seven code points.", "anchors": ["UnicodeData/UnicodeSet.py:UnicodeSet.charAt", "UnicodeData/UnicodeSet.py:UnicodeSet.indexOf"]}
{"id": "C14", "title": "Range views describe the set", "statement": "For every reachable set: c is contained iff it lies in one of getRanges(), iff getRangeStart(i) <= c <= getRangeEnd(i) for some i < getRangeCount(); ranges are ascending and do not overlap.", "quantifier": "all reachable sets, all code points", "why_tests_cant": "There are 2^1114112 sets; the repository's exhaustive test covers only subsets of seven code points.", "anchors": ["UnicodeData/UnicodeSet.py:UnicodeSet.getRanges", "UnicodeData/UnicodeSet.py:UnicodeSet.getRangeCount", "UnicodeData/UnicodeSet.py:UnicodeSet.getRangeStart", "UnicodeData/UnicodeSet.py:UnicodeSet.getRangeEnd"]}
{"id": "C15", "title": "contains(range) means all of the range", "statement": "For every reachable set s and range(a,b): s.contains(range(a,b)) iff every code point of the range is contained in s.", "quantifier": "all reachable sets, all ranges", "why_tests_cant": "Depends on canonical form of the set's representation and on every range.", "anchors": ["UnicodeData/UnicodeSet.py:UnicodeSet.contains"]}
{"id": "C16", "title": "contains on arbitrary integers", "statement": "For every reachable set and every integer x, contains(x) terminates without error and is False whenever x is not a code point (x < 0 or x > 0x10FFFF).", "quantifier": "all reachable sets, all integers", "why_tests_cant": "Infinitely many integers.", "anchors": ["UnicodeData/UnicodeSet.py:UnicodeSet.contains", "UnicodeData/UnicodeSet.py:UnicodeSet._findCodePoint"]}
{"id": "C17", "title": "Algebraic laws of the set operators", "statement": "The operators |, &, -, ^ and complement() satisfy commutativity, associativity, distributivity, De Morgan, absorption and A ^ B = (A-B)|(B-A), at the level of membership of every code point, for all reachable sets.", "quantifier": "all reachable triples of sets, all code points", "why_tests_cant": "There are 2^1114112 sets; the repository's exhaustive test covers only subsets of seven code points.", "anchors": ["UnicodeData/UnicodeSet.py:UnicodeSet.__or__", "UnicodeData/UnicodeSet.py:UnicodeSet.__and__", "UnicodeData/UnicodeSet.py:UnicodeSet.__sub__", "UnicodeData/UnicodeSet.py:UnicodeSet.__xor__"]}
{"id": "C18", "title": "Mutators return self", "statement": "Every mutating method documented ':return: self, to support chaining' returns the receiver for every receiver and arguments.", "quantifier": "all reachable sets, all arguments", "why_tests_cant": "Which return statement runs depends on the contents of the set.", "anchors": ["UnicodeData/UnicodeSet.py:UnicodeSet.addRange"]}
{"id": "C19", "title": "Constructors build the set they describe", "statement": "UnicodeSet() is empty; UnicodeSet(x) contains exactly x; UnicodeSet(range(a,b)) contains exactly a..b-1; UnicodeSet(s) contains exactly the elements of s.", "quantifier": "all legal constructor arguments, all code points", "why_tests_cant": "Quadratically many ranges.", "anchors": ["UnicodeData/UnicodeSet.py:UnicodeSet.__init__"]}
{"id": "C20", "title": "Surrogate pair conversion is a bijection", "statement": "surrogatesFromChar maps every supplementary code point to a (lead, trail) pair with isLead(lead) and isTrail(trail), charFromSurrogates inverts it, and charFromSurrogates maps every lead/trail pair to a supplementary code point that surrogatesFromChar maps back.", "quantifier": "all supplementary code points, all lead/trail pairs", "why_tests_cant": "Four literal pairs are tested out of 1,048,576.", "anchors": ["UnicodeData/Utilities.py:charFromSurrogates", "UnicodeData/Utilities.py:surrogatesFromChar", "UnicodeData/Utilities.py:isLead", "UnicodeData/Utilities.py:isTrail"]}
{"id": "C21", "title": "Surrogate and noncharacter classification", "statement": "For every integer c >= 0 below 2^32: isSurrogate(c) iff 0xD800 <= c <= 0xDFFF, isLead iff 0xD800..0xDBFF, isTrail iff 0xDC00..0xDFFF; isUnicodeNoncharacter(c) iff c is U+FDD0..U+FDEF or the last two code points of one of the 17 planes (all integers).", "quantifier": "all integers (32-bit range for the masks)", "why_tests_cant": "Infinite domain; tests only check positives.", "anchors": ["UnicodeData/Utilities.py:isSurrogate", "UnicodeData/Utilities.py:isLead", "UnicodeData/Utilities.py:isTrail", "UnicodeData/Utilities.py:isUnicodeNoncharacter"]}
{"id": "C22", "title": "arithmeticShift sign-extends the top field", "statement": "For all word widths w >= field widths f >= 1 and all values v with 0 <= v < 2^w: arithmeticShift(v,w,f) is the two's complement value of the top f bits of v, lies in [-2^(f-1), 2^(f-1)), and recovers d from any word whose top field encodes d.", "quantifier": "all widths and all values", "why_tests_cant": "Unbounded widths; not tested at all.", "anchors": ["UnicodeData/Utilities.py:arithmeticShift"]}
{"id": "C23", "title": "highBit is the position of the highest set bit", "statement": "For every 0 < v < 2^64: highBit(v) = floor(log2 v); highBit(0) is None.", "quantifier": "all 64-bit values", "why_tests_cant": "2^64 values.", "anchors": ["UnicodeData/Utilities.py:highBit"]}
{"id": "C24", "title": "UTrie2 lookup returns the stored value", "statement": "For every function f from code points to values, looking up any code point c in a UTrie2 holding f returns f(c), whatever index blocks are shared; values past U+10FFFF return the error value.", "quantifier": "all value functions, all code points", "why_tests_cant": "Tries and code points are unbounded in number; U+10FFFF is never tested.", "anchors": ["UnicodeData/Utrie2.py:UTrie2.get", "UnicodeData/Utrie2.py:UTrie2.indexFromCodePoint", "UnicodeData/Utrie2.py:UTrie2.indexFromSupp", "UnicodeData/Utrie2.py:UTrie2.indexRaw"]}
{"id": "C25", "title": "UTrie2 enumeration is a partition", "statement": "For every trie, start < limit and value function: the enumeration terminates, and the ranges it yields are non-empty, contiguous, begin at start, end at limit, and adjacent ranges have different values.", "quantifier": "all tries, all start/limit, all value functions", "why_tests_cant": "Depends on the block structure of the trie and on alignment.", "anchors": ["UnicodeData/Utrie2.py:UTrie2.enumerator"]}
{"id": "C26", "title": "UTrie2 enumeration agrees with lookup", "statement": "For every well-formed trie, start < limit and value function g: every c in a yielded range (r, v) has v = g(get(c)).", "quantifier": "all well-formed tries, all start/limit, all value functions", "why_tests_cant": "Only small windows of four tries are tested.", "anchors": ["UnicodeData/Utrie2.py:UTrie2.enumerator", "UnicodeData/Utrie2.py:UTrie2.get"]}
{"id": "C27", "title": "CPTrie lookup returns the stored value", "statement": "For every function f from code points to values and either trie type, looking up any code point in a CPTrie holding f returns f(c), including tries using 18-bit index-3 blocks; code points at or above highStart return the high value and larger integers the error value.", "quantifier": "all value functions, both trie types, all code points", "why_tests_cant": "Unbounded.", "anchors": ["UnicodeData/CPTrie.py:CPTrie.get", "UnicodeData/CPTrie.py:CPTrie.internalSmallIndex", "UnicodeData/CPTrie.py:CPTrie.cpIndex"]}
{"id": "C28", "title": "CPTrie enumeration terminates, partitions and agrees with lookup", "statement": "For every well-formed CPTrie and start < limit: enumeration terminates, yields contiguous ranges from start to limit, and every c in a yielded (r, v) has v = get(c).", "quantifier": "all well-formed tries, both types, all start/limit", "why_tests_cant": "Depends on block structure; only five windows are tested.", "anchors": ["UnicodeData/CPTrie.py:CPTrie.enumerator"]}
{"id": "C29", "title": "CPTrie binary format round-trip", "statement": "For every trie, parsing its serialized form with createFromData yields a trie with the same type, width, null offsets, highStart, index and data, for all three value widths, ignoring trailing bytes.", "quantifier": "all serializable tries", "why_tests_cant": "Unbounded byte strings.", "anchors": ["UnicodeData/CPTrie.py:CPTrie.createFromData"]}
{"id": "C30", "title": "Property vector fields do not interfere", "statement": "For every combination of age, script, block, East Asian width, binary, line/sentence/word/grapheme break, decomposition type and emoji field values packed in a property vector, each getter returns exactly its own field.", "quantifier": "all field values", "why_tests_cant": "2^96 vectors.", "anchors": ["UnicodeData/CharProps.py:getAge", "UnicodeData/CharProps.py:scriptFromVecIndex", "UnicodeData/CharProps.py:blockFromVecIndex", "UnicodeData/CharProps.py:eastAsianWidthFromVecIndex", "UnicodeData/CharProps.py:lineBreakFromVecIndex", "UnicodeData/CharProps.py:sentenceBreakFromVecIndex", "UnicodeData/CharProps.py:wordBreakFromVecIndex", "UnicodeData/CharProps.py:graphemeClusterBreakFromVecIndex", "UnicodeData/CharProps.py:decompTypeFromVecIndex", "UnicodeData/CharProps.py:binaryPropFromVecIndex"]}
{"id": "C31", "title": "Category predicates mean their documented categories", "statement": "For every character, isLower/isUpper/isTitle/isDigit/isalpha/isalnum/isbase/iscntrl/ispunct/isPrint/isgraph/isGraphPOSIX/isPrintPOSIX/isJavaSpaceChar/isDefined/isIDStart/isJavaIDStart hold iff the general category is in the documented list, and the implied inclusions and disjointness hold.", "quantifier": "all characters and all general categories", "why_tests_cant": "Every code point; only examples tested.", "anchors": ["UnicodeData/CharProps.py:isalpha", "UnicodeData/CharProps.py:isgraph", "UnicodeData/CharProps.py:isPrint", "UnicodeData/CharProps.py:ispunct", "UnicodeData/GeneralCategories.py"]}
{"id": "C32", "title": "Numeric values decode to what was encoded", "statement": "For every numeric value representable in the properties word (none, decimal, digit, small integer, fraction, large integer, base-60, fraction-20, fraction-32), getNumericValue returns that value, and the digitValue of a decimal digit is that digit and -1 otherwise.", "quantifier": "all encodable numeric values", "why_tests_cant": "About a thousand encodings across nine formats; boundaries are where errors hide.", "anchors": ["UnicodeData/CharProps.py:numericValueFromProps", "UnicodeData/CharProps.py:digitValue"]}
{"id": "C33", "title": "Property getters are total on Unicode", "statement": "With the shipped tables, for every code point 0..0x10FFFF every getter (category, script, block, EA width, line/sentence/word/grapheme break, decomposition type, bidi class, joining type, joining group, bracket type) returns without error a value that its name dictionary contains.", "quantifier": "all 1,114,112 code points and all getters", "why_tests_cant": "The exhaustive test needs a network download and skips unassigned and ranged code points.", "anchors": ["UnicodeData/CharProps.py", "UnicodeData/BidiProps.py", "UnicodeData/UCDTypeDictionaries.py"]}
{"id": "C34", "title": "Noncharacter and surrogate data agree with arithmetic", "statement": "For every code point c: the Noncharacter_Code_Point binary property of c iff isUnicodeNoncharacter(c); getGeneralCategory(c) is Surrogate iff isSurrogate(c).", "quantifier": "all code points", "why_tests_cant": "Not tested.", "anchors": ["UnicodeData/CharProps.py:getBinaryProp", "UnicodeData/CharProps.py:getGeneralCategory", "UnicodeData/Utilities.py:isUnicodeNoncharacter", "UnicodeData/Utilities.py:isSurrogate"]}
{"id": "C35", "title": "isIDIgnorable covers ignorable ISO controls", "statement": "isIDIgnorable(c) iff c is an ISO control that is not whitespace, or a format character (Cf), for every code point.", "quantifier": "all code points", "why_tests_cant": "Never tested.", "anchors": ["UnicodeData/CharProps.py:isIDIgnorable", "UnicodeData/CharProps.py:isIDPart", "UnicodeData/CharProps.py:isJavaIDPart"]}
{"id": "C36", "title": "getNumericType reports the numeric type", "statement": "getNumericType(c) is None/Decimal/Digit/Numeric (0..3) according to the kind of numeric value of c, for every code point.", "quantifier": "all code points", "why_tests_cant": "Never tested.", "anchors": ["UnicodeData/CharProps.py:getNumericType"]}
{"id": "C37", "title": "Case exception slots return what was stored", "statement": "For every exception word and every choice of optional slots (single or double width), getSlotValue(slot) returns the value stored for that slot, and the flag-offset table is the population count.", "quantifier": "all exception words, all slots, all stored values", "why_tests_cant": "Tests touch a few literal characters.", "anchors": ["UnicodeData/CaseProps.py:getSlotValue", "UnicodeData/CaseProps.py:slotOffset", "UnicodeData/CaseProps.py"]}
{"id": "C38", "title": "Simple case mappings are valid, idempotent and consistent", "statement": "With the shipped tables, for every code point c: toLower, toUpper and toTitle return code points; toLower(toLower c)=toLower c; toUpper(toUpper c)=toUpper c; characters without case are unchanged.", "quantifier": "all code points", "why_tests_cant": "Only a few characters tested offline.", "anchors": ["UnicodeData/CaseProps.py:toLower", "UnicodeData/CaseProps.py:toUpper", "UnicodeData/CaseProps.py:toTitle"]}
{"id": "C39", "title": "Full case mappings are valid and extend the simple ones", "statement": "With the shipped tables, for every code point c: toFullLower/Upper/Title never raise, return one to three code points without unpaired surrogates unless c is one, and equal the simple mapping when no special mapping exists.", "quantifier": "all code points", "why_tests_cant": "Only a few characters tested offline.", "anchors": ["UnicodeData/CaseProps.py:toFullLower", "UnicodeData/CaseProps.py:toUpperOrTitle"]}
{"id": "C40", "title": "Case mapping of ASCII", "statement": "For every c: toLower/toUpper on ASCII letters shift by 32 exactly between A-Z and a-z and every other ASCII character is unchanged.", "quantifier": "all ASCII code points", "why_tests_cant": "Checks two letters.", "anchors": ["UnicodeData/CaseProps.py:toLower", "UnicodeData/CaseProps.py:toUpper"]}
{"id": "C41", "title": "Bidi mirroring is an involution", "statement": "With the shipped tables, for every code point c: getMirror(getMirror(c)) = c, and getMirror(c) != c implies isMirrored(c) and isMirrored(getMirror(c)).", "quantifier": "all code points", "why_tests_cant": "Four pairs tested.", "anchors": ["UnicodeData/BidiProps.py:getMirror", "UnicodeData/BidiProps.py:getMirrorFromProps", "UnicodeData/BidiProps.py:isMirrored"]}
{"id": "C42", "title": "Paired brackets pair", "statement": "With the shipped tables, for every code point c: getPairedBracket is an involution, is the identity exactly off brackets, and maps opening brackets to closing brackets and back.", "quantifier": "all code points", "why_tests_cant": "Four pairs tested.", "anchors": ["UnicodeData/BidiProps.py:getPairedBracket", "UnicodeData/BidiProps.py:getPairedBracketType"]}
{"id": "C43", "title": "Hangul decomposition is the Unicode algorithm", "statement": "For every precomposed Hangul syllable the decomposition is its L,V or L,V,T jamo per the Unicode arithmetic, recomposing gives back the syllable, distinct syllables have distinct decompositions, and the raw decomposition is L,V for LV and LV-syllable,T for LVT, whose expansion is the full one.", "quantifier": "all 11172 syllables (any c in the range)", "why_tests_cant": "One syllable tested.", "anchors": ["UnicodeData/Normalizer2.py:Normalizer2.hangulDecomposition", "UnicodeData/Normalizer2.py:Normalizer2.rawHangulDecomposition"]}
{"id": "C44", "title": "Mapping strings decode UTF-16", "statement": "For every sequence of code points (no surrogates) stored as UTF-16 in the mapping data, the decomposition text read back is that sequence, at every offset.", "quantifier": "all code point sequences, all data offsets", "why_tests_cant": "Unbounded.", "anchors": ["UnicodeData/Normalizer2.py:Normalizer2.stringFromData"]}
{"id": "C45", "title": "Full decomposition is the closure of raw decomposition", "statement": "With the shipped NFC table, for every code point c: getDecomposition(c) is None iff getRawDecomposition(c) is None, and otherwise equals the result of repeatedly applying getRawDecomposition until no character decomposes; no character of it decomposes further.", "quantifier": "all code points", "why_tests_cant": "Fourteen characters tested.", "anchors": ["UnicodeData/Normalizer2.py:Normalizer2.getDecomposition", "UnicodeData/Normalizer2.py:Normalizer2.getRawDecomposition", "UnicodeData/Norm2NFCData.py"]}
{"id": "C46", "title": "ICU data file table of contents", "statement": "For every well-formed data file (any number of items, any names and offsets), after loading, each item name maps to its item's absolute offset and getString returns each NUL-terminated string stored.", "quantifier": "all well-formed data files", "why_tests_cant": "Unbounded file contents.", "anchors": ["UnicodeData/ICUDataFile.py:ICUData._populateData", "UnicodeData/ICUDataFile.py:ICUData.getString", "UnicodeData/ICUDataFile.py:ICUData.getName"]}
{"id": "C47", "title": "Group string lengths decode", "statement": "For every 32 string lengths (0..75), decoding their nibble encoding returns those lengths, their prefix sums as offsets, and the address just past the encoding.", "quantifier": "all length sequences, any following bytes", "why_tests_cant": "76^32 inputs.", "anchors": ["UnicodeData/CharNames.py:Group.expandGroupLengths"]}
{"id": "C48", "title": "Group search finds exactly the covering group", "statement": "For every sorted group table and code point, getGroup returns the group whose 32-character block contains the code point and None iff there is none.", "quantifier": "all sorted group tables, all code points", "why_tests_cant": "Unbounded tables.", "anchors": ["UnicodeData/CharNames.py:CharNames.getGroup"]}
{"id": "C49", "title": "Token expansion decodes names", "statement": "For every token table and every name written as a sequence of literal characters, single-byte and double-byte tokens, expandString returns the concatenation of the literals and token strings up to the first field separator.", "quantifier": "all token tables, all encoded names", "why_tests_cant": "Unbounded.", "anchors": ["UnicodeData/CharNames.py:Tokens.expandString"]}
{"id": "C50", "title": "Algorithmic names are unique", "statement": "Within an algorithmic range, distinct code points have distinct names for hexadecimal-suffix ranges, and the factored suffix is the mixed-radix decomposition of the offset, in bounds for every code point of the range.", "quantifier": "all algorithmic ranges and code points in them", "why_tests_cant": "Unbounded tables; a few characters tested.", "anchors": ["UnicodeData/CharNames.py:AlgorithmicRange.getName", "UnicodeData/CharNames.py:AlgorithmicRange.factorSuffix"]}
{"id": "C51", "title": "Name iteration and lookup by name agree with getCharName", "statement": "For every well-formed name table: nameIterator yields exactly the (c, getCharName(c)) with a non-empty name; charFromName(n) returns a code point whose name is n if one exists and 0xFFFFFFFF otherwise.", "quantifier": "all well-formed name tables, all names", "why_tests_cant": "Unbounded tables and names.", "anchors": ["UnicodeData/CharNames.py:CharNames.nameIterator", "UnicodeData/CharNames.py:CharNames.charFromName", "UnicodeData/CharNames.py:CharNames.getCharName"]}
{"id": "C52", "title": "UCD attribute lookup falls back to the group", "statement": "For every character element, group and attribute: a property is the character's own attribute if present, otherwise the group's, otherwise empty; boolean properties are true exactly for 'Y'.", "quantifier": "all attribute maps", "why_tests_cant": "Unbounded; no unit tests.", "anchors": ["UnicodeData/UCDProperties.py:UCDProperties"]}
{"id": "C53", "title": "Code point list attributes decode", "statement": "For every non-empty list of code points, a code point property written as space separated hexadecimal decodes to exactly those characters; '#' or empty means the character itself.", "quantifier": "all code point lists", "why_tests_cant": "Unbounded.", "anchors": ["UnicodeData/UCDProperties.py:UCDProperties.getCodePointsProperty", "UnicodeData/DecompProperties.py:DecompProperties.dmToString"]}
{"id": "C54", "title": "Printed code lists can be read back", "statement": "For every list of non-negative codes, splitting listOfCodes(codes) at \", \" and reading each part as hexadecimal gives back exactly the list; every printed code has at least four upper-case hexadecimal digits.", "quantifier": "all lists of non-negative integers", "why_tests_cant": "holds for lists of every length and numbers of every size", "anchors": ["UnicodeData/Utilities.py:listOfCodes"]}
{"id": "C55", "title": "Shipped character properties fit together", "statement": "With the shipped tables, for every code point: letters are Alphabetic; category Nd iff digitValue is 0..9; noncharacters are unassigned; XID_Start implies ID_Start implies ID_Continue, XID_Start implies XID_Continue implies ID_Continue; ASCII_Hex_Digit implies Hex_Digit; Emoji_Presentation and Emoji_Modifier_Base imply Emoji, Emoji_Modifier implies Emoji_Presentation; age 0 iff unassigned and not a noncharacter; script Unknown iff Cn, Co or Cs; Unified_Ideograph implies Ideographic; Pattern_White_Space is White_Space or Cf; Grapheme_Extend excludes Grapheme_Base.", "quantifier": "all 1,114,112 code points", "why_tests_cant": "No test compares two properties of the same character.", "anchors": ["UnicodeData/CharProps.py", "UnicodeData/CharPropsData.py", "UnicodeData/uprops_h.py"]}
{"id": "C56", "title": "Blocks are ranges of whole columns", "statement": "With the shipped tables, the code points of every block other than No_Block form one contiguous range, and the 16 code points of a column are always in the same block.", "quantifier": "all code points and blocks", "why_tests_cant": "Needs every code point, including unassigned ones.", "anchors": ["UnicodeData/CharProps.py:getBlock", "UnicodeData/CharPropsData.py"]}
{"id": "C57", "title": "Predicates mixing categories and code point ranges", "statement": "isHexDigit, isISOControl, isBlank, isspace and isWhiteSpace hold exactly for their documented ranges and categories, for every table and character; with the shipped tables isspace is White_Space plus U+001C..U+001F.", "quantifier": "all tables and characters", "why_tests_cant": "Boundary cases over the whole code space.", "anchors": ["UnicodeData/CharProps.py:isHexDigit", "UnicodeData/CharProps.py:isBlank", "UnicodeData/CharProps.py:isspace", "UnicodeData/CharProps.py:isWhiteSpace", "UnicodeData/CharProps.py:isISOControl"]}
{"id": "C58", "title": "Case mappings follow the stored case information", "statement": "For all tables and code points: a code point whose word holds a type and a signed distance is mapped by that distance exactly when its type is the other case; one whose word points to an exception is mapped by the exception's slots (distance with sign flag, lower, upper, title with fallback to upper), and toFullLower/Upper/Title return the stored full mapping text, the two conditional special cases, or the simple mapping. Every shipped code point is one of the two kinds.", "quantifier": "all tables, all code points, all exceptions (any subset of slots, single or double width, any mapping strings)", "why_tests_cant": "Tests know a few literal characters of one table.", "anchors": ["UnicodeData/CaseProps.py:toLower", "UnicodeData/CaseProps.py:toUpper", "UnicodeData/CaseProps.py:toTitle", "UnicodeData/CaseProps.py:toFullLower", "UnicodeData/CaseProps.py:toUpperOrTitle"]}
{"id": "C59", "title": "Case round trips", "statement": "With the shipped tables, for every code point c: toLower(toUpper c) = toLower c and toLower(toTitle c) = toLower c except for exactly 23 code points, toUpper(toLower c) = toUpper c except for exactly 6, and toUpper(toTitle c) = toUpper c without exception.", "quantifier": "all code points", "why_tests_cant": "Needs all 1114112 code points and pairs of calls.", "anchors": ["UnicodeData/CaseProps.py:toLower", "UnicodeData/CaseProps.py:toUpper", "UnicodeData/CaseProps.py:toTitle"]}
{"id": "C60", "title": "Bidi getters follow the stored words and tables", "statement": "For all tables: class, joining type, bracket type and the three flags are the fields of the 16-bit word; getMirror and getPairedBracket add the signed 3-bit distance or, for the escape value, return the partner in the mirror table (the character itself when it has no entry); if the table is symmetric, mirroring through it is an involution; the joining group is read from the two range tables and is 0 elsewhere. Every 16-bit word is covered and the shipped tables meet the hypotheses.", "quantifier": "all tables, all 16-bit words, all sorted mirror tables of any length, all code points", "why_tests_cant": "Tests read a few characters of one table.", "anchors": ["UnicodeData/BidiProps.py:getMirrorFromProps", "UnicodeData/BidiProps.py:getCharDirection", "UnicodeData/BidiProps.py:getJoiningGroup", "UnicodeData/BidiProps.py:getPairedBracket"]}
{"id": "C61", "title": "Shipped bidi properties fit together", "statement": "With the shipped tables, for every code point: isBidiControl holds for exactly the twelve formatting characters and isJoinControl for exactly ZWNJ and ZWJ; brackets have class ON, are mirrored and have category Ps or Pe by type; class NSM implies category Mn or Me; decimal digits have class L, R, EN or AN; noncharacters have class BN.", "quantifier": "all code points", "why_tests_cant": "Relations between tables over all code points; not tested.", "anchors": ["UnicodeData/BidiProps.py:isBidiControl", "UnicodeData/BidiProps.py:isJoinControl", "UnicodeData/BidiProps.py:getPairedBracketType", "UnicodeData/BidiProps.py:getCharDirection", "UnicodeData/CharProps.py:getGeneralCategory"]}
{"id": "C62", "title": "Mapping entries are read back", "statement": "For all data: if the value of a character points to an entry stored in ICU's layout (optional raw mapping, either a text or a first character; optional combining class word; flags; length; UTF-16 text), getDecomposition returns the entry's text and getRawDecomposition its raw mapping (None when that is empty).", "quantifier": "all tries, indexes, extra data and entries", "why_tests_cant": "Unbounded data; the tests see one table.", "anchors": ["UnicodeData/Normalizer2.py:Normalizer2.getDecomposition", "UnicodeData/Normalizer2.py:Normalizer2.getRawDecomposition"]}
{"id": "C63", "title": "Other values and the constructor", "statement": "For all data: characters below minDecompNoCP, lead surrogates, and values outside [minYesNo, minMaybeYes) have no decomposition; a value from limitNoNo up stands for a signed distance to the character it decomposes to, whose full decomposition is used; the constructor takes the thresholds from the indexes, cuts the extra data at the stated place and rejects an unaligned minMaybeYes.", "quantifier": "all data", "why_tests_cant": "Unbounded data.", "anchors": ["UnicodeData/Normalizer2.py:Normalizer2.__init__", "UnicodeData/Normalizer2.py:Normalizer2.mapAlgorithmic", "UnicodeData/Normalizer2.py:Normalizer2.getNorm16"]}
{"id": "C64", "title": "Shipped decompositions are well formed", "statement": "With the shipped NFC data both methods return for every code point (and every larger integer) without an exception; a character has either both decompositions or none, none below U+00C0; the raw one has one or two characters, the full one one to four; they contain no surrogate and never the character itself.", "quantifier": "all code points and other integers", "why_tests_cant": "Needs all code points.", "anchors": ["UnicodeData/Normalizer2.py:Normalizer2.getDecomposition", "UnicodeData/Normalizer2.py:Normalizer2.getRawDecomposition", "UnicodeData/Norm2NFCData.py"]}
{"id": "C65", "title": "Raw decomposition pairs are unique", "statement": "With the shipped NFC data no two code points have the same two-character raw decomposition.", "quantifier": "all pairs of code points", "why_tests_cant": "Quadratic in the code points.", "anchors": ["UnicodeData/Normalizer2.py:Normalizer2.getRawDecomposition"]}
{"id": "C66", "title": "Decompositions agree with the decomposition type", "statement": "With the shipped data, for every code point: CharProps.getDecompType is canonical exactly when Normalizer2 (NFC) has a decomposition.", "quantifier": "all code points", "why_tests_cant": "Two independent tables over all code points.", "anchors": ["UnicodeData/CharProps.py:getDecompType", "UnicodeData/Normalizer2.py:Normalizer2.getDecomposition"]}
{"id": "C67", "title": "Normalisation data read from the data file", "statement": "For every well-formed data file and every item <package>.nrm in it (any header, trie, padding, indexes, extra data), createFromFileData builds the normaliser of exactly the stored trie, indexes and extra data; an item with the hard-coded tables gives the hard-coded normaliser; a missing item raises KeyError.", "quantifier": "all data files, packages, tries, index and extra data lists", "why_tests_cant": "Unbounded file contents, and the data file is not in the repository.", "anchors": ["UnicodeData/Normalizer2.py:Normalizer2.createFromFileData", "UnicodeData/ICUDataFile.py:ICUData.getDataOffsetAndHeader"]}
{"id": "C68", "title": "Layout properties read from the data file", "statement": "For every well-formed data file with a ulayout.icu item, getInPC, getInSC and getVO return for every code point the value stored for it in the first, second and third trie of the item.", "quantifier": "all data files, tries and code points", "why_tests_cant": "Unbounded file contents, and the data file is not in the repository.", "anchors": ["UnicodeData/LayoutProps.py:getInPC", "UnicodeData/LayoutProps.py:getInSC", "UnicodeData/LayoutProps.py:getVO"]}
{"id": "C69", "title": "A failed load is not mistaken for a loaded file", "statement": "After ICUData() has raised because the data file is malformed, a later ICUData() raises again rather than succeed with items missing.", "quantifier": "all non-empty malformed files", "why_tests_cant": "Needs malformed files and a second call after a failure.", "anchors": ["UnicodeData/ICUDataFile.py:ICUData._populateData"]}
{"id": "C70", "title": "Names file read back", "statement": "For every token table, every list of groups of 32 encoded names and every list of algorithmic ranges, written as the unames.icu item of an ICU data file, loading the file yields exactly those tokens, groups and ranges, and getCharName of a code point in a group and in no range is the decoded text of its string.", "quantifier": "all ICU data files, tokens, groups, ranges, code points", "why_tests_cant": "icudata.dat is not in the repository, and tests see one file.", "anchors": ["UnicodeData/CharNames.py:CharNames.populateData", "UnicodeData/CharNames.py:Group.__init__", "UnicodeData/CharNames.py:AlgorithmicRange.__init__", "UnicodeData/CharNames.py:Tokens.populateData"]}
{"id": "C71", "title": "Extended names are total and unique", "statement": "For every name table and every code point outside the algorithmic ranges, the extended name is <category-XXXX>, with the shipped general category refined for noncharacters and surrogates; it never raises and different code points have different extended names. A standard name is preferred when there is one.", "quantifier": "all name tables, all 0x110000 code points", "why_tests_cant": "A handful of characters tested; pairs of code points not at all.", "anchors": ["UnicodeData/CharNames.py:CharNames.getCharName", "UnicodeData/CharNames.py:CharNames.getCharCat", "UnicodeData/CharNames.py:CharNames.getCharCatName"]}
{"id": "C72", "title": "Loading names again changes no name", "statement": "Each further call of CharNames.populateData appends the same groups and ranges again, and after any number of calls getGroup and getCharName answer as after the first.", "quantifier": "all files, any number of calls, all code points and choices", "why_tests_cant": "Unbounded number of calls; binary search on tables that are no longer sorted.", "anchors": ["UnicodeData/CharNames.py:CharNames.populateData", "UnicodeData/CharNames.py:CharNames.getGroup"]}
{"id": "C73", "title": "A CharacterData object has every attribute in its place", "statement": "For every character element and group whose attributes have the form the UCD uses (numerals, space separated lists of hexadecimal codes, '#', 'NaN', quotients), CharacterData(char, group) is the object with each of its 90 fields equal to the value of that attribute: the code point, combining class, name, bidi, decomposition, case, Indic and all 40 binary properties.", "quantifier": "all attribute maps, all code points, lists of any length", "why_tests_cant": "No unit tests; the test file needs the network.", "anchors": ["UnicodeData/CharacterData.py:CharacterData", "UnicodeData/BidiProperties.py:BidiProperties", "UnicodeData/CaseProperties.py:CaseProperties", "UnicodeData/DecompProperties.py:DecompProperties", "UnicodeData/IndicProperties.py:IndicProperties", "UnicodeData/BinaryProperties.py:BinaryProperties"]}
{"id": "C74", "title": "Every case mapping of CaseProperties is decoded", "statement": "For every element, each case mapping field, the simple title case included, is the string of the mapped characters.", "quantifier": "all attribute maps", "why_tests_cant": "No unit tests.", "anchors": ["UnicodeData/CaseProperties.py:CaseProperties"]}
{"id": "C75", "title": "Missing bidi mappings mean the character itself", "statement": "For every element, a missing mirrored glyph or paired bracket is the character itself.", "quantifier": "all attribute maps", "why_tests_cant": "No unit tests.", "anchors": ["UnicodeData/BidiProperties.py:BidiProperties"]}
{"id": "C76", "title": "The two copies of NFKC_Casefold agree", "statement": "For every element, decompProperties.nfkcCaseFolded and caseProperties.nkfcCasefold are the same string.", "quantifier": "all attribute maps", "why_tests_cant": "No unit tests.", "anchors": ["UnicodeData/DecompProperties.py:DecompProperties", "UnicodeData/CaseProperties.py:CaseProperties"]}
{"id": "C77", "title": "Names with a code point agree with the algorithmic names", "statement": "For every element whose name is a prefix followed by '#', the name of the CharacterData object is the algorithmic name CharNames gives to that code point in a range with that prefix.", "quantifier": "all prefixes, code points and ranges of type 0", "why_tests_cant": "Unbounded; two modules and two data formats.", "anchors": ["UnicodeData/CharacterData.py:CharacterData", "UnicodeData/CharNames.py:AlgorithmicRange.getName"]}
{"id": "C78", "title": "The index holds exactly the characters with each property", "statement": "For every file, after read(): the last element for a code point is the one kept; each set of the index contains a code point exactly if its data has that script, general category, bidi class, bracket type, numeric type other than None, or block; the decompositions are exactly those of the data; a second read() changes nothing; codePointsInSet lists exactly the members in ascending order.", "quantifier": "all files, all keys and code points", "why_tests_cant": "Unbounded; the file itself is downloaded.", "anchors": ["tests/UnicodeCharacterData.py:read", "tests/UnicodeCharacterData.py:PropertyList", "tests/UnicodeCharacterData.py:UnicodeCharacterData._populateCharacterData", "tests/UnicodeCharacterData.py:codePointsInSet"]}
{"id": "C79", "title": "The hand-written constants are those of the ICU headers", "statement": "Every constant that Blocks, Scripts, GeneralCategories, CharDirection, Boundaries, DecompositionType, EastAsianWidth, JoiningTypesAndGroups, Characters, CaseProps and BidiProps define with a name of the ICU headers has the value the generated header module (uchar_h, uscript_h, ucase_h, uprops_h) gives that name.", "quantifier": "every name in the modules", "why_tests_cant": "Some constants are one-element tuples because of a trailing comma; nothing in the tests reads them.", "anchors": ["UnicodeData/Blocks.py", "UnicodeData/Scripts.py", "UnicodeData/GeneralCategories.py", "UnicodeData/CharDirection.py", "UnicodeData/CaseProps.py", "UnicodeData/BidiProps.py"]}
{"id": "C80", "title": "The two copies of each name dictionary agree", "statement": "Each dictionary from property value to name that occurs both in its own module and in UCDTypeDictionaries has the same entries in both.", "quantifier": "every dictionary and key", "why_tests_cant": "The tests compare each copy with one source only.", "anchors": ["UnicodeData/UCDTypeDictionaries.py", "UnicodeData/Blocks.py", "UnicodeData/Boundaries.py", "UnicodeData/Scripts.py"]}
{"id": "C81", "title": "Names of property values are one to one and complete", "statement": "The keys of each dictionary of property value names are exactly 0..n-1, different values have different names, and every value the CharProps getters return is a key.", "quantifier": "every dictionary, key and code point", "why_tests_cant": "Depends on the whole range of the property trie.", "anchors": ["UnicodeData/UCDTypeDictionaries.py", "UnicodeData/Scripts.py", "UnicodeData/CharProps.py"]}
{"id": "C82", "title": "The header reader delivers exactly the code", "statement": "For every ICU header, calling nextLine until it returns None ends and delivers the lines of code and the definitions with their continuation lines, in order, and nothing that is inside a comment or a conditional; each line is split into its text and its trailing comment.", "quantifier": "all headers made of blank lines, comments, guards, conditionals, code and continued definitions", "why_tests_cant": "module_builder has no tests; the state machine has four flags and unbounded input.", "anchors": ["module_builder/HeaderToPtyhon.py:HeaderFile.nextLine", "module_builder/HeaderToPtyhon.py:HeaderFile.getTrailingComment"]}
{"id": "C83", "title": "The translated header has the values of the C header", "statement": "For every sequence of declarations, translate writes name = value for each macro that has a value, no arguments and is not ignored, and name = text or number for each enumerator, the numbers being those the C rule gives.", "quantifier": "all sequences of #define, enum, typedef enum and other declarations", "why_tests_cant": "No tests; unbounded sequences, values depend on all enumerators before.", "anchors": ["module_builder/HeaderToPtyhon.py:HeaderFile.translate"]}
{"id": "C84", "title": "The translation of a header ends without an error of its own", "statement": "For all lines translate ends, and fails only if the evaluation of a value fails.", "quantifier": "all lists of lines", "why_tests_cant": "Unbounded.", "anchors": ["module_builder/HeaderToPtyhon.py:HeaderFile.translate", "module_builder/HeaderToPtyhon.py:HeaderFile.firstToken"]}
{"id": "C85", "title": "Arrays and scalars of C files become the same Python values", "statement": "For every C source in which a name is declared as an array or a scalar, arrayToPython and scalarToPython write an assignment whose text differs from the initialiser in white space only.", "quantifier": "all sources, names and initialisers", "why_tests_cant": "No tests; regular expressions over whole files.", "anchors": ["module_builder/ModuleBuilder.py:ModuleBuilder.getArrayDeclaration", "module_builder/ModuleBuilder.py:ModuleBuilder.arrayToPython", "module_builder/ModuleBuilder.py:ModuleBuilder.scalarToPython"]}
{"id": "C86", "title": "The fields of a UTrie2 are taken from their places", "statement": "For every UTrie2 initialiser with one field to a line, trieValues writes indexLength, index2NullOffset, dataNullOffset, highStart and highValueIndex under their names; with fewer than eleven fields it raises IndexError.", "quantifier": "all initialisers", "why_tests_cant": "No tests; positions are magic numbers.", "anchors": ["module_builder/ModuleBuilder.py:ModuleBuilder.trieValues", "module_builder/ModuleBuilder.py:ModuleBuilder.trieValuesFromTrieDeclaration"]}
{"id": "C87", "title": "UCDReader collects exactly the values of each property", "statement": "For all rows of ppucd.txt, generateDictionaries keeps for each known property one line for each value row, in order, with the constant from the exceptions or the upper case of the long name, leaves out those whose constant is empty, keeps the last version, and raises IndexError exactly for rows with too few cells; every constant in the exceptions exists in the header modules.", "quantifier": "all lists of rows", "why_tests_cant": "No tests; ppucd.txt is not in the repository.", "anchors": ["module_builder/UCDReader.py:UCDReader.generateDictionaries"]}
{"id": "C88", "title": "The generated dictionaries are what Python reads back", "statement": "The file writeFile writes is the text of one dictionary assignment for each property; if all constants are defined, running it gives for each value the name of the last row for it; the shipped UCDTypeDictionaries.py is such a file.", "quantifier": "all lists of rows and all environments", "why_tests_cant": "No tests; needs the meaning of the generated text.", "anchors": ["module_builder/UCDReader.py:UCDReader.writeFile", "UnicodeData/UCDTypeDictionaries.py"]}
{"id": "C89", "title": "Enumerating a shipped trie tells the value of every code point", "statement": "With its default arguments the enumerator of a shipped trie yields ranges that partition all code points, and the value of a range is the value of each of its code points.", "quantifier": "all code points, all shipped UTrie2 and CPTrie tables", "why_tests_cant": "No test enumerates a shipped trie; the wrong ranges only show when all code points are compared.", "anchors": ["UnicodeData/Utrie2.py:UTrie2.enumerator", "UnicodeData/CPTrie.py:CPTrie.enumerator", "UnicodeData/CharProps.py"]}
{"id": "C90", "title": "The text of a UnicodeSet determines the set", "statement": "str() of every set built through the API is a list display that evaluates to its list of range limits, so two sets have the same text exactly if they are equal.", "quantifier": "all sets reachable through the API", "why_tests_cant": "Tests print a few sets; injectivity is over all pairs.", "anchors": ["UnicodeData/UnicodeSet.py:UnicodeSet.__str__"]}
{"id": "C91", "title": "The command line of the module builder", "statement": "A command line is accepted exactly if it is the three options, each once, in any order, each followed by a value that is not empty; the attributes are then these values; every other command line is a ValueError.", "quantifier": "all lists of arguments", "why_tests_cant": "No tests; all orders, repetitions and omissions.", "anchors": ["module_builder/ModuleBuilder.py:ModuleBuilderArgs"]}
{"id": "C92", "title": "Python's text functions and the shipped tables agree on characters", "statement": "The white space that str.strip and \\s take in the module builder is exactly the characters of category Zs or bidi class B, S or WS in the shipped tables; in ASCII, \\w, upper() and lower() agree with the shipped categories and case mappings.", "quantifier": "all code points for white space, all ASCII characters for the others", "why_tests_cant": "Compares two independent sources over all code points.", "anchors": ["module_builder/HeaderToPtyhon.py", "UnicodeData/CharPropsData.py", "UnicodeData/BidiPropsData.py", "UnicodeData/CasePropsData.py"]}
{"id": "C93", "title": "Each name choice reads its own field", "statement": "For every token table and line of a group written as fields separated by semicolons, expandName returns the decoded text of the field that belongs to the name choice (name, Unicode 1.0 name, ISO comment, alias) and the empty string when the line has fewer fields; the same holds for getCharName on the file. It does not hold when a two-byte token contains the byte of the semicolon.", "quantifier": "all token tables, groups, lines and fields; all files with such a names item", "why_tests_cant": "Unbounded; the tests only use the first field.", "anchors": ["UnicodeData/CharNames.py:Group.expandName", "UnicodeData/CharNames.py:CharNames.getCharName"]}
{"id": "C94", "title": "ppucd.txt is read as the records written in it", "statement": "The rows that UCDReader iterates over are the records of the file: whatever list of records is written with semicolons between fields, with or without quotation marks around a field, with LF or CR LF line ends and with or without a last line end, is read back exactly, provided no field exceeds 131072 characters. The reader fails only for NUL or an over-long field, and never yields more characters than the file has. A line without quotation marks is its text split at the semicolons; with a quotation mark at the front of a field that fails, and the following lines are swallowed.", "quantifier": "for all texts, and for all lists of records with fields of any text", "why_tests_cant": "The space of files is infinite and the state of the reader depends on all earlier characters; tests of the repository never run the builder.", "anchors": ["module_builder/UCDReader.py:155-156", "module_builder/UCDReader.py:158-160"]}
{"id": "C95", "title": "build makes its eleven outputs from the inputs, in order, and touches nothing else", "statement": "Given an output directory that is not a file, has no directory in the way of an output, and is not the parent of the source directory, build writes BidiPropsData.py, CharPropsData.py, CasePropsData.py, the four header modules, icudata.dat, LICENSE, UCDTypeDictionaries.py and UnicodeVersion.py, each made from the input files as they were before; it succeeds exactly when every output can be made, and otherwise stops at the first that cannot, with the earlier ones in place. Whatever happens no other existing file is changed. Building again gives the same outputs. The ICU versions are the first quoted definitions in uvernum.h; CR LF line ends make no difference. Not true: that a failed build leaves the old outputs together; that the license is found when the source directory is given as dot; that a ppucd.txt without version is noticed.", "quantifier": "for all file systems, working directories, arguments, dates and evaluators", "why_tests_cant": "The repository has no test of the builder; the claim is about all trees of files, including wrong ones, and about every file that is not an output.", "anchors": ["module_builder/ModuleBuilder.py:171-255", "module_builder/HeaderToPtyhon.py:25-49", "module_builder/UCDReader.py:136-194"]}
{"id": "C96", "title": "install puts the built files where the package looks for them", "statement": "In a working directory with UnicodeData and UnicodeData/Data, install copies every *.py of the given directory into UnicodeData and icudata.dat and LICENSE into UnicodeData/Data, whatever the order of the directory, and changes no other file; after a build, the package holds each output as made from the inputs of the build. Not true when UnicodeData/Data is missing (the license replaces the data file under the name Data and nothing is reported) or when UnicodeData is missing (the modules are written over each other into one file).", "quantifier": "for all file systems, working directories and source directories other than the package and its Data directory", "why_tests_cant": "The repository has no test of the installer; the claim is about all directories and all files that are not touched.", "anchors": ["module_builder/ModuleInstaller.py:13-21", "UnicodeData/ICUDataFile.py:17"]}
{"id": "C97", "title": "Paths given as text name the files the user means", "statement": "From any working directory the empty text and '.' mean the directory itself, '..' the directory above (the root above itself), '/' the root, a file name the entry of that name, and s/t what t means from the place of s, with doubled slashes and dots making no difference. The license is looked for in the directory above the source directory if the argument ends in a name, and every file the builder names below an argument is the file of that name in the directory the argument leads to.", "quantifier": "all working directories, all texts s, all relative texts t, all file names", "why_tests_cant": "There are no tests of the builder; the meaning of a path depends on the working directory and on all combinations of dots and slashes.", "anchors": ["module_builder/ModuleBuilder.py:158-255", "module_builder/ModuleInstaller.py:13-21"]}
{"id": "C98", "title": "Every history of UnicodeSet calls, with every observation afterwards", "statement": "Any history of calls on existing UnicodeSet objects with code points as arguments runs without an exception and gives the outcomes of the same history on mathematical sets in which removeRange, retainRange and complementRange with end <= start, and addRange with end < start, are skipped; afterwards every object iterates over exactly the members of its mathematical set in ascending order without repetition and size counts them; and a call changes nothing that is seen of any object but its receiver.", "quantifier": "all finite sequences of the twenty kinds of calls, any number of objects, all code points, including objects used as both operands", "why_tests_cant": "Unboundedly many histories with aliasing; the tests build a handful of sets in fixed ways.", "anchors": ["UnicodeData/UnicodeSet.py:393-585", "UnicodeData/UnicodeSet.py:609-647", "UnicodeData/UnicodeSet.py:689-719", "UnicodeData/UnicodeSet.py:819-822"]}
{"id": "C99", "title": "What the built modules say", "statement": "After a build that succeeds (in the situation of C95) every output file has these contents. BidiPropsData.py, CharPropsData.py and CasePropsData.py: the comment with name, source and date, then one after the other, in this order and nothing else, the Python form (C85, C86) of each declaration of the C file named in ModuleBuilder.build. The four header modules: the comment, the extra lines, the translation (C82-C84) of the lines of the header. UCDTypeDictionaries.py: the comment, the two imports, the dictionaries of C88 for the rows of ppucd.txt (C94). UnicodeVersion.py: the version in these rows. icudata.dat and LICENSE: the bytes of the file of the short version of uvernum.h and of the license. The result is the pair of the versions.", "quantifier": "all working directories, arguments, dates, file systems with those inputs and outputs that are no directories, and all evaluations of C expressions", "why_tests_cant": "The test suite has no test of the build; the outputs depend on the whole file system and the contents of eleven input files of any size.", "anchors": ["module_builder/ModuleBuilder.py:100-108", "module_builder/ModuleBuilder.py:124-156", "module_builder/ModuleBuilder.py:185-255", "module_builder/HeaderToPtyhon.py:32-44", "module_builder/UCDReader.py:136-194"]}
{"id": "C100", "title": "The tables of the model are what Python reads in the files", "statement": "A reader for the part of Python's grammar used by the modules of constants (PyParse.v: tokens, numerals, strings, operators with their precedence, tuples, lists, dictionaries, calls, imports) turns the text of each of the fifteen modules of constants into exactly the statements of Data_Modules.v, and importing the text gives the environments of C77 to C81. Importing the text of BidiPropsData.py, CasePropsData.py, CharPropsData.py and Norm2NFCData.py binds exactly the names of the model to exactly its arrays and numbers, and UnicodeVersion.py gives 13.0.0.", "quantifier": "every entry of the twenty modules", "why_tests_cant": "The tests read a few entries through the functions; none compares the tables as a whole.", "anchors": ["UnicodeData/BidiPropsData.py:1-3", "UnicodeData/CasePropsData.py:1-3", "UnicodeData/CharPropsData.py:1-3", "UnicodeData/Norm2NFCData.py:12-27", "UnicodeData/uchar_h.py:1-10", "UnicodeData/UCDTypeDictionaries.py:1-10"]}
{"id": "C101", "title": "The built data modules have the numbers of the C source", "statement": "After a build that succeeds, Python reads in BidiPropsData.py, CharPropsData.py and CasePropsData.py exactly the names of the declarations, bound to the values of the numerals of the C arrays, scalars and trie fields, in order and for arrays of any length and layout; and in UnicodeVersion.py the version of ppucd.txt.", "quantifier": "all working directories, arguments, file systems and C files in which the declarations are found by their names and have decimal numerals without leading zeros or hexadecimal numerals with commas and white space; all dates without quotation marks and backslashes", "why_tests_cant": "The build is not tested, the arrays have any length, and the claim joins the C file, the text of the module and the reading of that text by Python.", "anchors": ["module_builder/ModuleBuilder.py:100-162", "module_builder/ModuleBuilder.py:189-214", "module_builder/ModuleBuilder.py:253-255"]}
{"id": "C102", "title": "The built header modules have the values of the C header", "statement": "For a header whose code is a sequence of declarations (C82, C83), each with the value of its expression (numerals, names defined above, parentheses, unary minus, U_MASK(n), and | & << >> + - * with their precedence, as in C), Python reads in the translated module exactly the names of the declarations, each bound to its value; an enumerator without a value has the one after its predecessor's. After a build that succeeds this holds of uprops_h.py, ucase_h.py, uchar_h.py (which has U_MASK too) and uscript_h.py.", "quantifier": "all headers made of such declarations, comments, conditionals and guards as in C82 and C83, of any length; all expressions of any depth; every eval that gives these expressions their values; all working directories, arguments and file systems", "why_tests_cant": "The translator is not tested; the claim joins the text of the C header, the written text and Python's reading of it, for expressions of any depth.", "anchors": ["module_builder/HeaderToPtyhon.py:51-158", "module_builder/ModuleBuilder.py:216-230", "UnicodeData/uchar_h.py:1-10"]}
{"id": "C103", "title": "What the value predicates of Normalizer2 say about characters", "statement": "For every code point, getNorm16 of the shipped data gives a value for which isJamoL holds exactly of U+1100..1112, isJamoVT exactly of U+1161..1175 and U+11A8..11C2, isHangulLV and isHangulLVT exactly of the syllables without and with a trailing consonant, and isDecompYes exactly of the characters for which getDecomposition (and getRawDecomposition) is None. isInert holds of the value 1 only, which only characters without decomposition have that are no jamo and cannot combine; lead surrogates always have it, whatever the data, and so has everything above U+10FFFF.", "quantifier": "all code points (and integers above them) of the shipped data; all data for the lead surrogates", "why_tests_cant": "The tests call getDecomposition only; the predicates are not tested, and the claim is about all 1114112 code points.", "anchors": ["UnicodeData/Normalizer2.py:156-187", "UnicodeData/Norm2NFCData.py:12-27"]}
{"id": "C104", "title": "Importing the built UCDTypeDictionaries gives the names of the source tree", "statement": "Take a finished build whose uchar.h and uscript.h declare constants, and whose ppucd.txt has value rows with plain names. Importing the UCDTypeDictionaries.py it wrote, with the uchar_h.py and uscript_h.py it wrote, succeeds. For every property type of the rows there is a dictionary <type>Names, and looking up an integer gives the short name of the last row whose constant has this value in the headers, and nothing if there is none. If a constant is in neither header, importing raises NameError.", "quantifier": "all source trees, rows, headers and dates", "why_tests_cant": "There are no tests of the build. The claim joins text that three programs write with what Python makes of it when importing.", "anchors": ["module_builder/UCDReader.py:112-194", "module_builder/ModuleBuilder.py:224-251", "UnicodeData/UCDTypeDictionaries.py:1-20"]}
{"id": "C105", "title": "What the two programs say and do for every command line", "statement": "The module builder prints its own description and exits with status 1 when it gets no arguments. Otherwise, if the arguments are not those of C91, it prints its name and one message and exits with status 1. The message is determined by what follows the longest run of good option/value pairs: a repeated option, an unknown option, an option without an accepted value, or the end (then the first of --sourceDir, --buildDir, --outputDir without a non-empty value is named). In all these cases no file changes. The status is 0 exactly if the arguments are accepted and the build succeeds; an exception of the build, also a ValueError, is not turned into a message. The installer raises IndexError without touching a file when it has no argument and ignores all but the first.", "quantifier": "all command lines, file trees, and behaviours of the argument iterator", "why_tests_cant": "There are no tests of the programs. Command lines are unbounded and the order of the checks matters.", "anchors": ["module_builder/ModuleBuilder.py:19-82", "module_builder/ModuleBuilder.py:171-183", "module_builder/ModuleInstaller.py:13-24"]}
{"id": "C106", "title": "What the exhaustive test tells", "statement": "The exhaustive test passes exactly when every element of the UCD file that has its own cp attribute can be read and, for the last element of each code point, the library answers what the element says in each compared property: scripts, categories, bidi classes, joining, blocks, widths, breaks, decomposition types and mappings, case mappings, indic and orientation values, names, and 38 binary properties by their bit. Elements for ranges are not tested. Files that differ only in attributes that are not compared (numeric values, combining classes, word breaks, script extensions, simple mappings, case foldings, quick checks) give the same result. With tables that answer for each code point of the file, the result is a pass or an AssertionError. A second run in the same process gives the same, but after a file that could not be read it tests only the elements before the bad one, and can pass. A file that calls U+10FFFF a noncharacter cannot pass.", "quantifier": "all UCD files (lists of groups of elements with any attributes), all layout tries, names and normalizer tables", "why_tests_cant": "It is a property of the test itself: what a pass implies and what it leaves open, for every file.", "anchors": ["tests/test_exhaustive.py:23-161", "tests/UnicodeCharacterData.py:67-103"]}
{"id": "C107", "title": "Programs with UnicodeSet objects do what they say", "statement": "For every program built from names, ints, bools, ranges, strings and UnicodeSet objects with the constructor, the methods, the operators | & - ^, their augmented assignments, in, ==, !=, if and for: names bound to one object see every change of it and copies see none; a for loop over a set that its body leaves alone runs over the members in ascending order; an argument of a wrong type raises TypeError, an operand that is no set AttributeError; every value bound to a name and the members of every set at the end are those of the same program on mathematical sets.", "quantifier": "all programs of the language, with any nesting of loops and branches, any number of names and objects and any arguments", "why_tests_cant": "the repository's tests call single methods on literals; aliasing, nesting and argument types combine without bound", "anchors": ["UnicodeData/UnicodeSet.py:393-708", "UnicodeData/UnicodeSet.py:743-793", "UnicodeData/UnicodeSet.py:819-822"]}
{"id": "C108", "title": "Integers that are no code points, and the last code point", "statement": "A property getter tells an integer that is no code point from the code points, and gives U+10FFFF the properties of U+10FFFF. (False: every integer from U+10FFFF on gets one and the same error value, so U+10FFFF is reported as unassigned, in no block, of no age, no noncharacter and left-to-right; negative integers are counted from the end of the index and answered with the properties that some word of the trie would mean; only integers below -32 times the length of the index raise IndexError. Only getScript and the full case mappings tell U+10FFFF from what is above it.)", "quantifier": "every UTrie2 and every integer; for the shipped tables every integer >= 0x10FFFF, every negative integer far enough below, and each of -44928 .. -1", "why_tests_cant": "the tests only ask for code points, there are infinitely many other integers, and the answers look like ordinary properties", "anchors": ["UnicodeData/Utrie2.py:52-95", "UnicodeData/CharProps.py:19-34", "UnicodeData/CharProps.py:269-372", "UnicodeData/BidiProps.py:78-144", "UnicodeData/CaseProps.py:150-308"]}
{"id": "C109", "title": "Text boundary values are those of UAX #29", "statement": "For every code point the answers of getGraphemeClusterBreak, getWordBreak and getSentenceBreak are the ones that the tables of UAX #29 (Unicode 13.0) compute from the other properties the library gives for this code point (category, script, line break, case type, Alphabetic, Ideographic, White_Space, Grapheme_Extend, STerm, emoji modifiers, Default_Ignorable) and from the short lists of exceptions named there.", "quantifier": "every code point 0 .. 0x10FFFF, all three properties", "why_tests_cant": "the tests compare single properties with a file that is not in the repository; that three properties of 1114112 code points follow from a dozen others is not among their cases", "anchors": ["UnicodeData/CharProps.py:300-350", "UnicodeData/Boundaries.py:8-120", "UnicodeData/CharPropsData.py", "UnicodeData/CaseProps.py:150-170"]}
{"id": "C110", "title": "Derived properties follow from the properties they are derived from", "statement": "For every code point: the case type is that of the category and Other_Lowercase / Other_Uppercase; case-ignorable follows from category and word break; ID_Start, ID_Continue, XID_Start, XID_Continue, Default_Ignorable_Code_Point, Grapheme_Base, White_Space, Pattern_White_Space and Dash are those of UAX #44 and UAX #31; fullwidth and halfwidth follow from the decomposition type; the line break classes for surrogates, emoji bases and modifiers, Hebrew letters, jamo, Hangul syllables, regional indicators and digits, the bidi classes of marks and spaces, bracket types and transparent joining types follow from the other properties.", "quantifier": "every code point 0 .. 0x10FFFF, 18 derived and 27 layout rules", "why_tests_cant": "the tables come from three data files generated apart; only a comparison across all of them and all code points shows that they fit together", "anchors": ["UnicodeData/CharProps.py:269-390", "UnicodeData/BidiProps.py:78-144", "UnicodeData/CaseProps.py:40-60", "UnicodeData/CharPropsData.py", "UnicodeData/BidiPropsData.py", "UnicodeData/CasePropsData.py"]}
{"id": "C111", "title": "Unassigned code points have the default values", "statement": "For every code point whose category is Cn: the bidi class is BN for noncharacters and default ignorables, AL in the Arabic blocks, R in the other right-to-left blocks, ET in the currency block and L elsewhere; width is W and line break ID where ideographs are expected, otherwise N and XX (PR for currency, ID for reserved pictographs); the break, decomposition, case, joining and bracket values are the neutral ones and no letter, identifier or white space property holds.", "quantifier": "every code point 0 .. 0x10FFFF of category Cn", "why_tests_cant": "the tests use the UCD files, which have no element for most unassigned code points", "anchors": ["UnicodeData/CharProps.py:269-390", "UnicodeData/BidiProps.py:78-144", "UnicodeData/BidiPropsData.py", "UnicodeData/CharPropsData.py"]}
{"id": "C112", "title": "A failed read of the UCD file is not followed by a successful one", "statement": "If an element of the UCD file cannot be read, read() raises, and so does every later call. Filling the indexes never raises, whatever integers the code points are, after any calls. (The first is false: the characters before that element stay in the class, and the next call takes them for the whole file; it succeeds without reading anything, whatever the file holds by then, and the index answers as for a file that ends before the bad element. Only when the first element is bad does the next call read again.)", "quantifier": "every file, every position of the first bad element, every later file", "why_tests_cant": "the tests never call read() twice after an exception, and the second result looks like a proper index", "anchors": ["tests/UnicodeCharacterData.py:62-104", "tests/UnicodeCharacterData.py:117-146"]}
{"id": "C113", "title": "A character and its canonical decomposition are treated alike", "statement": "For every code point c with a canonical decomposition (Normalizer2.getDecomposition, shipped NFC data) x followed by t: the word and sentence break values of c are those of x, its grapheme cluster break is that of x (except SpacingMark for Extend and LV/LVT for L), and every character of t has a grapheme cluster break before which no cluster ends. c can start (continue) an identifier exactly when x can and t can continue it (when all parts can continue it), for XID_* and ID_*. Category, direction, joining type and group, numeric value, script and seventeen binary properties are those of x up to the stated exceptions (titlecase for uppercase, spacing for nonspacing marks, a Common first part). Every character whose norm16 value is isMaybeOrNonZeroCC never starts a grapheme cluster and is a mark or a vowel or final jamo. A decomposition has no characters of a later age than the character, but for eight Arabic letters.", "quantifier": "for all code points and all decompositions of the shipped data", "why_tests_cant": "The decompositions are read from one packed table (norm2 data) and the properties from others (uprops, ubidi); only a proof over all 13 233 decompositions shows that they agree. The tests of the repository look at single values.", "anchors": ["UnicodeData/Normalizer2.py:156-163", "UnicodeData/Normalizer2.py:244-271", "UnicodeData/CharProps.py:29-34", "UnicodeData/CharProps.py:183-187", "UnicodeData/BidiProps.py:78-122"]}
{"id": "C114", "title": "Changing case and decomposing can be done in either order", "statement": "For every text (list of code points): decomposing the full upper case of the text gives the same as decomposing the full upper case of the decomposed text, and the same for full lower case; so texts with the same decomposition have upper (lower) cases with the same decomposition. The full title case of a character decomposes as the title case of its first part followed by the other parts. Simple lower-casing commutes for every character except U+0130; simple upper-casing does not.", "quantifier": "for all texts of any length over all code points", "why_tests_cant": "The quantifier ranges over all strings, and the case exceptions table and the NFC table are independent; a single wrong full mapping of the Greek or Latin exceptions would break it for texts no test contains.", "anchors": ["UnicodeData/CaseProps.py:150-311", "UnicodeData/Normalizer2.py:244-271"]}
{"id": "C115", "title": "Changing case changes only the case", "statement": "For every code point c, toLower(c) has the script, direction, word and grapheme cluster break, numeric value, joining type and group and all binary properties (other than Math) of c, and either is c or its category goes from Lu or Lt to Ll (or stays Nl, So). The same holds of toUpper and toTitle, except for U+0345 (a mark whose upper case is a letter) and for the script of U+00B5; their results are uppercase or titlecase letters. An identifier of any length (XID_Start XID_Continue* or ID_Start ID_Continue*) stays one in full upper and in full lower case.", "quantifier": "for all code points; identifiers of any length", "why_tests_cant": "The mappings and the other properties come from different tables; a wrong delta still gives a code point, and only a comparison over all 4287 code points with case data shows it. Identifiers are of any length.", "anchors": ["UnicodeData/CaseProps.py:150-311", "UnicodeData/CharProps.py:19-34", "UnicodeData/CharProps.py:183-185", "UnicodeData/BidiProps.py:78-122"]}
{"id": "C116", "title": "Upper case of lower case is a key for caseless comparison", "statement": "For every text: taking the full upper case twice, or the full lower case twice, is the same as once. key(text) = upper(lower(text)) does not change when any characters of the text are replaced by their full lower, upper or title case, and key(key(text)) = key(text); texts that agree in upper case or in lower case have the same key, and texts with the same canonical decomposition have keys with the same decomposition. lower(upper(text)) is no such key (U+1E9E).", "quantifier": "for all texts of any length over all code points, and every choice of characters whose case is changed", "why_tests_cant": "All strings and all choices of mappings per character; the full mappings that are several characters interact only in texts the tests do not have.", "anchors": ["UnicodeData/CaseProps.py:210-311", "UnicodeData/Normalizer2.py:244-271"]}
{"id": "C117", "title": "Mirror images and paired brackets fit the other properties and canonical equivalence", "statement": "For every code point c, d = getMirror(c) has the script, direction, word, sentence and grapheme cluster break, numeric value, joining type and group and all binary properties (other than Math) of c; if d is not c, an opening or initial punctuation mark goes to a closing or final one (and back) and symbols go to symbols. For a text of any length, replacing every character by getPairedBracket of it and then decomposing gives what decomposing and then replacing gives. The same holds for getMirror, unless the text has one of eight characters (struck-through signs whose image with the stroke is not a character) or the image of one; each of the eight is an exception. isMirrored of a character is isMirrored of the first part of its decomposition, but for five listed characters.", "quantifier": "for all code points; texts of any length", "why_tests_cant": "Mirror images come from a delta in the trie or from a table with back links, decompositions from another table, the other properties from a third. One wrong entry gives another code point and no error, and texts are of any length.", "anchors": ["UnicodeData/BidiProps.py:57-106", "UnicodeData/BidiProps.py:135-144", "UnicodeData/Normalizer2.py:244-271", "UnicodeData/CharProps.py:19-34"]}
{"id": "C118", "title": "Decimal digits stand in rows of ten, and numbers written with them are read back", "statement": "For every code point c of category Nd there is z such that z, z+1, ..., z+9 have digitValue 0, 1, ..., 9, c is one of them, and all ten have the same category, script, block, width, line, word, sentence and grapheme cluster break, decomposition type, direction and binary properties; c is in the row of one zero only. For every zero z and every n >= 0 there are digits such that the text of the characters z + d, of any length, is read as n by n = 10*n + digitValue(ch); a text of digits of any rows has the value of the ASCII digits that digitValue gives.", "quantifier": "for all code points; numbers of any size and texts of any length", "why_tests_cant": "Values come from the props trie, scripts and breaks from the vectors, directions from the bidi data; 650 digits in 65 rows, and numbers are unbounded.", "anchors": ["UnicodeData/CharProps.py:29-34", "UnicodeData/CharProps.py:169-171", "UnicodeData/CharProps.py:298-373", "UnicodeData/BidiProps.py:78-80"]}
{"id": "C119", "title": "What a consumer of an enumeration has before an exception", "statement": "When UTrie2.enumerator raises (a reference out of range, or an exception of the value function), the ranges yielded before are consecutive, begin at start, and neighbours differ in value; they are the first ranges of the enumeration with any function that agrees with the value function where that does not raise. The model with all ranges or an exception (C25) and the one that keeps both agree. The ranges of script and width that are yielded before the IndexError have the values of the getters. (False for the last: they end before U+30000, and are wrong exactly for the listed code points.)", "quantifier": "for all tries, value functions, equalities, starts and limits", "why_tests_cant": "A generator that fails midway needs a consumer that stops or catches; the state at the exception depends on the trie and the function.", "anchors": ["UnicodeData/Utrie2.py:97-217", "UnicodeData/CharProps.py:282-321"]}
{"id": "C120", "title": "A search in a set reads a logarithmic number of entries, and add cannot fail", "statement": "_findCodePoint on any list that is not empty, sorted or not, ends with an index into the list, after reading at most 2 + log2(length) entries rounded up; contains answers with the parity of that index. add of any integer to such a list does not raise and leaves a list that is not empty, at most two entries longer; so after any sequence of adds, of integers that need not be code points, every question is answered.", "quantifier": "all lists, all integers, all sequences of adds", "why_tests_cant": "The bound is on every list length; tests see neither the number of entries read nor lists that bad integers have left unsorted.", "anchors": ["UnicodeData/UnicodeSet.py:63-98", "UnicodeData/UnicodeSet.py:393-419", "UnicodeData/UnicodeSet.py:587-607"]}
{"id": "C121", "title": "A CPTrie enumeration that is not answered raises AssertionError or loops for ever, after a known prefix", "statement": "For every well-formed trie with a constant null block and every request that begins below highStart: either it is answered, or there is exactly one obstacle, the first code point that it cannot pass. Then the consumer gets all ranges but the last of the answer to the request that ends at the obstacle, and afterwards AssertionError if the obstacle lies in the part with three stages and there are at least 512 code points before it; in all other cases the generator runs for ever without yielding.", "quantifier": "all well-formed tries of either type, all requests, any number of passes", "why_tests_cant": "That a loop never ends cannot be observed, and the five windows tested are all answered.", "anchors": ["UnicodeData/CPTrie.py:246-351"]}
{"id": "C122", "title": "Building and installing files of bytes, in any encoding of the locale", "statement": "For every encoding in which decoding inverts encoding: a build of files of bytes ends as the build of their texts does (C95), with the files that its texts are encoded to, unless a source is not valid in this encoding (UnicodeDecodeError) or the text of an output cannot be encoded (UnicodeEncodeError; the output is left empty); no other file changes. UTF-8 decodes exactly the sequences of standard forms of scalar values and is inverse to encoding; ASCII characters are the ASCII bytes in UTF-8, ISO 8859-1 and ASCII. A module written in UTF-8 is imported as the text it was made of, one written in ISO 8859-1 exactly when it is ASCII. The installer keeps all bytes.", "quantifier": "all file systems, command line options, dates, eval functions and codecs; all texts and byte sequences", "why_tests_cant": "Tests run in one locale with one set of sources.", "anchors": ["module_builder/ModuleBuilder.py:91-98", "module_builder/ModuleBuilder.py:158-162", "module_builder/ModuleBuilder.py:185-255", "module_builder/HeaderToPtyhon.py:25-49", "module_builder/UCDReader.py:155", "module_builder/UCDReader.py:182-194", "module_builder/ModuleInstaller.py:13-21"]}
{"id": "C123", "title": "The builder can encode what it writes, and when the encoding of the locale matters", "statement": "In UTF-8, ISO 8859-1 and ASCII: if the characters of the date are in the encoding, a build never fails to encode an output, whatever the files are: every character it writes is one it has read, or ASCII, or from the date. It then ends as the build of the decoded files does, or a source is not valid in the encoding; files of bytes stay files of bytes. If the sources and the date are ASCII and no copy replaces a source, the build gives the same result and the same files in all three encodings, and no codec fails. With other sources the encoding can matter: a header in UTF-8 with a comment that ends in an a with grave accent is built in both UTF-8 and ISO 8859-1, but in ISO 8859-1 the last byte is stripped as a space and the module is not valid UTF-8.", "quantifier": "all file systems, command line options, dates and eval functions; three encodings", "why_tests_cant": "Tests run in one locale with one set of sources.", "anchors": ["module_builder/ModuleBuilder.py:91-162", "module_builder/ModuleBuilder.py:185-255", "module_builder/HeaderToPtyhon.py:25-158", "module_builder/UCDReader.py:136-194"]}
{"id": "C124", "title": "Sets collected from enumerations", "statement": "A loop that adds every enumerated range whose value is wanted to an empty UnicodeSet with addRange(r.start, r.stop - 1) never fails, and a code point is in the set exactly if one of the wanted ranges has it. If the ranges are an enumeration (they follow one another, and neighbours have different values) and one value is wanted, getRanges lists exactly the ranges enumerated with this value, in this order. So from a UTrie2 or a CPTrie, under the conditions of C26 and C28 for the enumeration, the set has exactly the code points whose lookup gives the value. From the shipped data, the set of a general category has exactly the characters of this category, except at the code points listed in C89, which are never in the set of their own category.", "quantifier": "all lists of ranges of code points, empty ones included, with values of any type, all tests of values; all UTrie2 and CPTrie under the conditions of C26 and C28; all code points and all categories for the shipped data", "why_tests_cant": "The tests of the repository compare enumerations with lookups for a few ranges and test sets on small literals; none combines the two.", "anchors": ["UnicodeData/UnicodeSet.py:421-456", "UnicodeData/UnicodeSet.py:811-817", "UnicodeData/Utrie2.py:97-222", "UnicodeData/CPTrie.py:246-351"]}
{"id": "C125", "title": "Adding the ranges of a set to an empty one repairs it", "statement": "For every set, however it was built, a loop that adds its ranges to an empty set with addRange gives a set with the same code points that has none of the defects of union and of the constructor: two such copies are == exactly if the sets have the same code points, contains(range) of the copy is True exactly if every code point of a non-empty range is in the set, and the ranges of the copy are not empty and do not touch. A set built without union is equal to its copy.", "quantifier": "all sets that can be built with the operations of the class, all ranges of code points that are not empty", "why_tests_cant": "The tests build a few small sets and never compare a union with the same set built in another way.", "anchors": ["UnicodeData/UnicodeSet.py:421-456", "UnicodeData/UnicodeSet.py:811-817", "UnicodeData/UnicodeSet.py:587-607", "UnicodeData/UnicodeSet.py:649-654"]}
{"id": "C126", "title": "Sets do not depend on the order of additions", "statement": "Adding code points one by one to an empty set never fails; the iterator then gives them in increasing order and once each, and size counts them. The stored list depends only on which code points were added, not on their order or how often. The same holds for ranges added with addRange, which may overlap or be empty. Copying any set code point by code point gives the same list as copying it range by range.", "quantifier": "all lists of code points, all lists of ranges, all sets that can be built with the operations of the class", "why_tests_cant": "There are as many orders as permutations, and addRange takes different paths for ranges before, inside and after those already there; the tests add in a few fixed orders.", "anchors": ["UnicodeData/UnicodeSet.py:393-419", "UnicodeData/UnicodeSet.py:421-456", "UnicodeData/UnicodeSet.py:819-822", "UnicodeData/UnicodeSet.py:710-719"]}
{"id": "C127", "title": "The sizes of sets add up", "statement": "For any two sets, (A | B).size() + (A & B).size() = A.size() + B.size(), (A - B).size() + (A & B).size() = A.size() and (A ^ B).size() + (A & B).size() = (A | B).size(); a set and its complement have 0x110000 code points together. A is part of B exactly when A - B has size 0, when A & B has the size of A, and when A | B has the size of B. indexOf(c) is the number of members below c. add makes the size larger by one exactly when the code point was missing. The sets collected from an enumeration for its different values have no code point in common and their sizes add up to the length of the enumerated range; each size is the sum of the lengths of its ranges.", "quantifier": "all pairs of sets that can be built with the operations of the class (also those with adjacent or empty ranges in their lists), all code points, all partitions of a range into runs", "why_tests_cant": "The sizes are counted on lists of boundaries that depend on how the set was made (union leaves adjacent ranges apart); a test compares a few sizes with numbers.", "anchors": ["UnicodeData/UnicodeSet.py:710-719", "UnicodeData/UnicodeSet.py:743-772", "UnicodeData/UnicodeSet.py:609-647", "UnicodeData/UnicodeSet.py:393-419", "UnicodeData/Utrie2.py:97-222"]}
{"id": "C128", "title": "Reliable replacements for the calls that fail", "statement": "(A ^ B).size() == 0 exactly when A and B have the same code points, even where A == B says no; (UnicodeSet(range(a, b)) - A).size() == 0 exactly when all of the range is in A, even where range(a, b) in A says no; A.size() == 0 exactly when A is empty, and (A & B).size() == 0 exactly when they have no code point in common. removeAll, retainAll and complementAll with UnicodeSet(c) remove, retain and complement exactly the one code point, which remove(c), retain(c) and complement(c) do not.", "quantifier": "all sets that can be built with the operations of the class, all code points, all ranges within Unicode, also the last code point and empty ranges", "why_tests_cant": "A replacement is safe only if it holds for every list a set can have, also lists with adjacent or empty ranges that no test builds.", "anchors": ["UnicodeData/UnicodeSet.py:481-529", "UnicodeData/UnicodeSet.py:548-580", "UnicodeData/UnicodeSet.py:587-654", "UnicodeData/UnicodeSet.py:710-719"]}
{"id": "C129", "title": "Enumerating 2048 code points at a time gives every value right", "statement": "A caller that asks UTrie2.enumerator for 2048 code points at a time, and looks the surrogates up one by one, gets ranges that follow one another from 0 to 0x10FFFE, and each code point looks up to the value of its range. A UnicodeSet collected from these ranges has exactly the code points whose value is kept. The shipped tries of character, bidi and case properties can be enumerated in this way with any value function; so the set of the characters of a general category is right for every code point below U+10FFFF, which the set from one enumeration of everything is not (C89, C124).", "quantifier": "all tries whose references are in range and whose null blocks hold the initial value, all value functions, all code points below U+10FFFF", "why_tests_cant": "The values of one big enumeration are wrong only where a window ends in front of a block that differs from an even one before it; that no window of the loop has this, for any content of the trie, cannot be seen from examples.", "anchors": ["UnicodeData/Utrie2.py:93-222", "UnicodeData/UnicodeSet.py:421-456", "UnicodeData/CharProps.py:32-34"]}
{"id": "C130", "title": "The last change that concerns a code point decides", "statement": "Whatever calls of add, addRange, removeRange, addAll and removeAll a program makes on a set, in any order, none fails, and afterwards a code point is in the set exactly when some call put it in and no later call took it out, or it was there at the start and no call took it out. A range that was disjoint from the set can be added and removed again, a range that was in the set can be removed and added again, with the same answers as before. Two calls that concern different code points can be made in either order. removeRange(c, c) concerns no code point (C08).", "quantifier": "all sets made by the public calls, all sequences of these calls with code points, ranges and such sets, all code points", "why_tests_cant": "The effect of a call depends on how the boundaries of the earlier calls lie; there are unboundedly many sequences.", "anchors": ["UnicodeData/UnicodeSet.py:100-337", "UnicodeData/UnicodeSet.py:393-498"]}
{"id": "C131", "title": "A set copied range by range has the fewest ranges, and operations need few", "statement": "Adding the ranges of a set to an empty one gives a set with exactly one range for each run of consecutive code points, so no set with the same code points has fewer ranges, however it was made. The union, intersection and difference of two sets, copied in this way, have at most as many ranges as both sets together, the complement at most one more than the set. Without the copy a union can have more ranges than needed (C11).", "quantifier": "all sets made by the public calls, all pairs of such sets", "why_tests_cant": "That no other history of calls gives a shorter list is a statement about all histories; the bounds hold for sets of any number of ranges.", "anchors": ["UnicodeData/UnicodeSet.py:721-723", "UnicodeData/UnicodeSet.py:811-817", "UnicodeData/UnicodeSet.py:421-456", "UnicodeData/UnicodeSet.py:609-637"]}
