{"id": "C01", "title": "UTF-C round trip", "statement": "UtfcDecode(UtfcEncode(s)) returns s for every string s of valid Unicode text.", "quantifier": "every finite sequence of Unicode scalar values (all lengths, all codec states reachable along the way)", "why_tests_cant": "The codec is stateful (current window, auxiliary window, 13/21-bit mode); the outcome for a character depends on the whole history of characters before it, so no finite set of sample strings covers the reachable state x character combinations.", "anchors": ["utfc.go:UtfcEncode", "utfc.go:UtfcDecode", "utfc.go:UtfcState.Follow"]}
{"id": "C02", "title": "UTF-C never emits a zero byte", "statement": "No byte of UtfcEncode(s) is 0x00, so encoded keys can be inserted in a DAWG, which reserves label 0 for 'end of key'.", "quantifier": "every sequence of runes, every codec state", "why_tests_cant": "Zero bytes appear only for particular low bytes of particular code points in particular states.", "anchors": ["utfc.go:UtfcState.Follow"]}
{"id": "C03", "title": "UTF-C encoding is injective", "statement": "Two different texts never have the same UTF-C encoding.", "quantifier": "every pair of sequences of Unicode scalar values", "why_tests_cant": "A collision is a relation between two inputs with two different state histories.", "anchors": ["utfc.go:UtfcState.Follow", "utfc.go:UtfcEncode"]}
{"id": "C04", "title": "UTF-C length bounds", "statement": "UtfcEncode(s) has at least one and at most three bytes for every code point of s.", "quantifier": "every sequence of Unicode scalar values", "why_tests_cant": "Depends on state history.", "anchors": ["utfc.go:UtfcState.Follow"]}
{"id": "C05", "title": "UTF-C early abort", "statement": "UtfcFollow(s,f) hands f exactly the bytes of UtfcEncode(s) in order, stops at the first byte f refuses, and returns true iff f refused none; a refused character leaves the codec state as it was before that character.", "quantifier": "every text and every (stateful) follower", "why_tests_cant": "A follower is an arbitrary program; it may stop anywhere.", "anchors": ["utfc.go:UtfcFollow", "utfc.go:UtfcState.Follow"]}
{"id": "C06", "title": "UTF-C is a streaming (prefix-preserving) code", "statement": "The encoding of s+t is the encoding of s followed by the bytes produced from the state reached after s; in particular Encode(s) is a prefix of Encode(s+t), so prefix search on encoded keys is sound.", "quantifier": "every pair of texts", "why_tests_cant": "Needs all split points of all texts.", "anchors": ["utfc.go:UtfcFollow", "utfc.go:UtfcState.Follow", "utfc.go:UtfcState.Copy"]}
{"id": "C07", "title": "UtfcEncode results survive later calls", "statement": "The byte slice returned by UtfcEncode keeps its content when UtfcEncode is called again.", "quantifier": "every history of UtfcEncode calls", "why_tests_cant": "Aliasing shows only for particular histories and buffer capacities.", "anchors": ["utfc.go:UtfcEncode", "utfc.go:sharedBuffer"]}
{"id": "C08", "title": "UtfcEncode is history independent", "statement": "The bytes read from the slice returned by UtfcEncode(s) right after the call depend on s only, whatever calls were made before (the package-level state is reset, the shared buffer is truncated and grown as needed).", "quantifier": "every history of earlier UtfcEncode/UtfcFollow calls", "why_tests_cant": "Ranges over all histories.", "anchors": ["utfc.go:UtfcEncode", "utfc.go:sharedState", "utfc.go:sharedBuffer"]}
{"id": "C09", "title": "Insert accepts exactly ordered keys", "statement": "InsertKeyValue returns true iff the key is >= the last accepted key in byte-lexicographic order.", "quantifier": "every history of insertions of keys without zero bytes", "why_tests_cant": "Every history of calls.", "anchors": ["dawg_builder.go:InsertKeyValue"]}
{"id": "C10", "title": "Rejected inserts have no effect", "statement": "When InsertKeyValue returns false on a builder that already holds a key, the builder is left exactly as it was.", "quantifier": "every reachable builder state and key", "why_tests_cant": "Needs every reachable state.", "anchors": ["dawg_builder.go:InsertKeyValue"]}
{"id": "C11", "title": "The Dawg holds exactly the inserted entries", "statement": "After Finish, walking the Dawg (Root/Child/Sibling/Label/Value) spells exactly the accepted keys with their values, whatever states were merged.", "quantifier": "every history of insertions (zero-free keys) followed by Finish", "why_tests_cant": "State merging depends on global structure; every history matters.", "anchors": ["dawg_builder.go:fixUnits", "dawg_builder.go:Finish", "dawg.go:Child", "dawg.go:Sibling", "dawg.go:Label", "dawg.go:Value"]}
{"id": "C12", "title": "Re-inserting the last key overwrites its value", "statement": "Inserting the last key again returns true and replaces its value; no duplicate entry appears.", "quantifier": "every history", "why_tests_cant": "Every history.", "anchors": ["dawg_builder.go:InsertKeyValue"]}
{"id": "C13", "title": "The Dawg is minimal", "statement": "NumOfStates()-1 is the number of distinct non-empty residual maps of the accepted entries: no two states of the result accept the same suffixes with the same values.", "quantifier": "every history", "why_tests_cant": "Minimality quantifies over all pairs of states of all inputs; it rests on the open-addressing hash table finding every equal state.", "anchors": ["dawg_builder.go:findUnit", "dawg_builder.go:expandHashTable", "dawg_builder.go:areEqual", "dawg.go:NumOfStates"]}
{"id": "C14", "title": "Transition counters", "statement": "NumOfTransitions()+NumOfMergedTransitions() is the number of edges of the uncompressed trie (each key's terminator counted), and NumOfMergedStates() = that number + 1 - NumOfStates().", "quantifier": "every history", "why_tests_cant": "Every history.", "anchors": ["dawg_builder.go:numOfMergedStates", "dawg.go:NumOfTransitions", "dawg.go:NumOfMergedTransitions"]}
{"id": "C15", "title": "Building never panics or hangs", "statement": "On a new builder with any initial table size >= 1, any sequence of InsertKeyValue calls with zero-free keys and any int32 values followed by one Finish terminates without panic.", "quantifier": "every history, every initial hash table size", "why_tests_cant": "Probe loops terminate only if the load factor invariant holds in every reachable state.", "anchors": ["dawg_builder.go:InsertKeyValue", "dawg_builder.go:fixUnits", "dawg_builder.go:findUnit", "dawg_builder.go:findTransition"]}
{"id": "C16", "title": "Result independent of hash table size", "statement": "The Dawg produced by Finish is the same for every initial hash table size.", "quantifier": "every history and every two initial sizes >= 1", "why_tests_cant": "Two executions with different probe sequences and expansion points.", "anchors": ["dawg_builder.go:NewDawgBuilderWithSize", "dawg_builder.go:expandHashTable"]}
{"id": "C17", "title": "Builder is reusable after Finish", "statement": "After Finish the builder behaves as a new one.", "quantifier": "every history before Finish", "why_tests_cant": "State after every history.", "anchors": ["dawg_builder.go:Finish", "dawg_builder.go:clear", "dawg_builder.go:InsertKeyValue"]}
{"id": "C18", "title": "Ill-formed entries are rejected", "statement": "InsertKeyValue rejects (returns false, no panic) keys containing a zero byte, and negative values, which the format cannot represent.", "quantifier": "every key and value", "why_tests_cant": "Every key position and history.", "anchors": ["dawg_builder.go:InsertKeyValue"]}
{"id": "C19", "title": "Stored values survive", "statement": "The value read back from the Dawg equals the value inserted for every non-negative int32 value (and v + 2^31 for a negative one).", "quantifier": "every value and every history", "why_tests_cant": "Bit packing shares the value word with flags.", "anchors": ["dawg_unit.go:base", "base_unit.go:value", "dictionary_unit.go:dictSetValue", "dictionary_unit.go:dictValue"]}
{"id": "C20", "title": "Merging states are counted exactly", "statement": "NumOfMergingStates() is the number of Dawg states for which IsMerging is true.", "quantifier": "every history", "why_tests_cant": "Every history.", "anchors": ["dawg_builder.go:fixUnits", "dawg.go:IsMerging", "dawg.go:NumOfMergingStates"]}
{"id": "C21", "title": "Every inserted key is found with its value", "statement": "After Build, ContainsString(k) is true and FindString(k)/FindStringValue return k's value for every accepted key k.", "quantifier": "every set of entries whose Build returns a dictionary", "why_tests_cant": "The double-array placement (free list, block recycling, offset reuse) is global; every key set exercises a different layout.", "anchors": ["dictionary_builder.go:BuildDictionary", "dictionary.go:ContainsString", "dictionary.go:FindString", "dictionary.go:Follow"]}
{"id": "C22", "title": "No false positives", "statement": "ContainsString(q) is false and FindString(q) is -1 for every q that was not inserted.", "quantifier": "every entry set and every query string", "why_tests_cant": "Every query against every layout.", "anchors": ["dictionary.go:Follow", "dictionary_unit.go:dictLabel", "dictionary_builder.go:fixBlock"]}
{"id": "C23", "title": "Queries never panic", "statement": "No query method panics on a built dictionary, whatever the query string.", "quantifier": "every entry set and query", "why_tests_cant": "Every query.", "anchors": ["dictionary.go:Follow", "dictionary.go:Value"]}
{"id": "C24", "title": "Follow is prefix search", "statement": "FollowString(p) from Root succeeds iff p is a prefix of an accepted key; when it succeeds HasValue/Value at the reached index describe p itself, and following s from there behaves like following p+s from Root.", "quantifier": "every entry set and every string", "why_tests_cant": "Every prefix of every layout.", "anchors": ["dictionary.go:FollowString", "dictionary.go:HasValue", "dictionary.go:Value"]}
{"id": "C25", "title": "Follow stops at the first mismatch", "statement": "FollowStringCount adds to count exactly the number of bytes followed and leaves index at the node of that longest followed prefix.", "quantifier": "every entry set, index, string", "why_tests_cant": "Every string.", "anchors": ["dictionary.go:FollowStringCount", "dictionary.go:FollowStringLenCount"]}
{"id": "C26", "title": "The lookup variants agree", "statement": "FindString(q) >= 0 iff ContainsString(q) iff FindStringValue returns true, with the same value; *value is untouched when FindStringValue returns false; ...Len variants equal the plain ones on the first length bytes.", "quantifier": "every dictionary (even corrupt), every query", "why_tests_cant": "Every dictionary content.", "anchors": ["dictionary.go:FindString", "dictionary.go:FindStringValue", "dictionary.go:ContainsStringLen", "dictionary.go:FindStringLen"]}
{"id": "C27", "title": "Build succeeds within the format limits", "statement": "Build returns a dictionary (no nil, no panic, no hang) whenever the total trie is within the offset limit of the format; Size() is a multiple of 256, and BuildWithUnused reports exactly the number of units not used by the root, a node or a value.", "quantifier": "every entry set with total size below the bound", "why_tests_cant": "The free list and block recycling must be consistent in every reachable state.", "anchors": ["dictionary_builder.go:BuildDictionary", "dictionary_builder.go:reserveUnit", "dictionary_builder.go:expandDictionary", "dictionary_builder.go:fixBlock"]}
{"id": "C28", "title": "Dictionary unit packing", "statement": "dictSetOffset/dictSetLabel/dictSetHasLeaf/dictSetValue and the readers behave as independent fields: an accepted offset is read back and neither label, leaf flag nor has-leaf flag is disturbed; offsets the format cannot hold are refused.", "quantifier": "every 32-bit unit, offset, label, value", "why_tests_cant": "2^32 x 2^32 combinations.", "anchors": ["dictionary_unit.go"]}
{"id": "C29", "title": "BitPool is an array of booleans", "statement": "After any sequence of allocate/set, get returns the last bit set (false if none), and set changes no other bit.", "quantifier": "every history", "why_tests_cant": "Every history.", "anchors": ["bit_pool.go"]}
{"id": "C30", "title": "LinkTable is a map", "statement": "While at most tableSize distinct non-zero indices have been inserted, Find(i) returns the offset of the last Insert(i,_), or 0 if i was never inserted and the table is not full; Insert and Find terminate.", "quantifier": "every history of inserts and every table size", "why_tests_cant": "Probe sequences depend on hash collisions.", "anchors": ["link_table.go", "dawg_builder.go:intHash"]}
{"id": "C31", "title": "Dictionary Write/Read round trip", "statement": "ReadDictionary on the bytes written by Write (followed by any other bytes) returns an equal dictionary and consumes exactly FileSize() bytes.", "quantifier": "every dictionary with fewer than 2^32 units, every trailing data", "why_tests_cant": "All unit contents and sizes.", "anchors": ["dictionary.go:Read", "dictionary.go:Write", "dictionary.go:FileSize"]}
{"id": "C32", "title": "Guide, RankedGuide and Index Write/Read round trip", "statement": "The same for Guide, RankedGuide and Index; a file holding dictionary, guide and index in sequence is read back in sequence.", "quantifier": "every content, every trailing data", "why_tests_cant": "All contents and sizes.", "anchors": ["guide.go:Read", "guide.go:Write", "ranked_guide.go:Read", "ranked_guide.go:Write", "index.go:Read", "index.go:Write"]}
{"id": "C33", "title": "Truncated input is refused", "statement": "Reading from any strict prefix of a written object returns false/nil, and never panics.", "quantifier": "every object and every truncation point", "why_tests_cant": "Every truncation point of every object.", "anchors": ["dictionary.go:Read", "guide.go:Read", "index.go:Read"]}
{"id": "C34", "title": "A failed Read leaves the receiver unchanged", "statement": "When Read returns false the receiver is as before the call.", "quantifier": "every receiver, every input", "why_tests_cant": "Every input.", "anchors": ["dictionary.go:Read", "guide.go:Read", "ranked_guide.go:Read", "index.go:Read"]}
{"id": "C35", "title": "Write reports short writes", "statement": "Write returns true iff the writer accepted all FileSize() bytes, and what was written is always a prefix of the serialisation.", "quantifier": "every object and every failing writer", "why_tests_cant": "Failure at every byte.", "anchors": ["dictionary.go:Write", "guide.go:Write", "index.go:Write"]}
{"id": "C36", "title": "Completer enumerates exactly the keys with the prefix, in order", "statement": "After FollowString(p) and Start, successive Next calls return true once per accepted key with prefix p, in lexicographic order, with Value() the key's value, and then false.", "quantifier": "every entry set and prefix", "why_tests_cant": "All layouts and all enumeration points.", "anchors": ["completer.go:Next", "completer.go:FindTerminal", "guide_builder.go:buildIndices"]}
{"id": "C37", "title": "Completer.Key() is the key", "statement": "When Next returns true, Key() is the prefix followed by the completed suffix and Length() is its length.", "quantifier": "every entry set, prefix and step", "why_tests_cant": "Every step.", "anchors": ["completer.go:Key", "completer.go:Length", "completer.go:Follow"]}
{"id": "C38", "title": "Enumeration terminates also with the empty key", "statement": "Enumerating from Root terminates when the empty key is in the dictionary.", "quantifier": "every entry set containing the empty key", "why_tests_cant": "Non-termination cannot be observed by a finite test.", "anchors": ["completer.go:Next"]}
{"id": "C39", "title": "Exhausted completers stay exhausted; Start resets", "statement": "After Next has returned false it keeps returning false; Start after any use behaves as Start on a new completer.", "quantifier": "every completer state", "why_tests_cant": "Every history.", "anchors": ["completer.go:Next", "completer.go:StartStringLen"]}
{"id": "C40", "title": "Guide build succeeds", "statement": "BuildGuide on a dictionary built from the same Dawg returns a guide (no nil, panic or hang).", "quantifier": "every entry set", "why_tests_cant": "Every layout.", "anchors": ["guide_builder.go:Build"]}
{"id": "C41", "title": "Index counts keys", "statement": "BuildIndex succeeds with the plain guide; TotalCount() is the number of accepted keys and ChildCount(i) is the number of keys below the node i.", "quantifier": "every non-empty entry set with fewer than 2^32 keys", "why_tests_cant": "Every layout.", "anchors": ["index_builder.go:Build", "index.go:TotalCount", "index.go:ChildCount"]}
{"id": "C42", "title": "StringToIndex is the rank", "statement": "StringToIndex(k) is the number of accepted keys smaller than k, for every accepted key.", "quantifier": "every entry set and key", "why_tests_cant": "Every key set.", "anchors": ["indexer.go:BytesToIndex"]}
{"id": "C43", "title": "StringToIndex reports absent keys", "statement": "StringToIndex(q) is NotFound for every q that was not inserted.", "quantifier": "every entry set and query", "why_tests_cant": "Every query.", "anchors": ["indexer.go:BytesToIndex"]}
{"id": "C44", "title": "IndexToString is the inverse", "statement": "IndexToString(i) is the i-th key in order for i < TotalCount(), so StringToIndex and IndexToString are mutually inverse; for i >= TotalCount() it returns no key.", "quantifier": "every entry set and index", "why_tests_cant": "Every index.", "anchors": ["indexer.go:IndexToBytes", "indexer.go:BytesToIndex"]}
{"id": "C45", "title": "Indexing works with a ranked guide", "statement": "C41-C44 hold when the guide is a RankedGuide, which BuildIndex and NewIndexer accept.", "quantifier": "every entry set", "why_tests_cant": "Every value assignment.", "anchors": ["index_builder.go:buildIndices", "indexer.go:BytesToIndex", "ranked_guide_builder.go:turnLinksToUnits"]}
{"id": "C46", "title": "Indexing the empty dictionary", "statement": "BuildIndex works for the guide and dictionary of an empty lexicon.", "quantifier": "the empty entry set", "why_tests_cant": "Boundary case of the universal claim.", "anchors": ["index_builder.go:Build", "guide_builder.go:Build"]}
{"id": "C47", "title": "RankedCompleter enumerates by decreasing value", "statement": "After FollowString(p) and Start, Next returns each accepted key with prefix p exactly once, in non-increasing order of value, then false.", "quantifier": "every entry set and prefix", "why_tests_cant": "Priority queue and lazily created nodes: all interleavings of expansion and popping.", "anchors": ["ranked_completer.go:Next", "ranked_guide_builder.go:buildIndices", "ranked_completer_candidate.go"]}
{"id": "C48", "title": "RankedCompleter.Key() is the key", "statement": "Key() is prefix plus suffix and Length() its length when Next returns true.", "quantifier": "every step", "why_tests_cant": "Every step.", "anchors": ["ranked_completer.go:Key", "ranked_completer.go:Next"]}
{"id": "C49", "title": "Custom comparators rank completions", "statement": "With BuildRankedGuideCmp and a comparator, RankedCompleter enumerates in the comparator's order.", "quantifier": "every comparator", "why_tests_cant": "Every comparator.", "anchors": ["ranked_guide_builder.go:BuildRankedGuideCmp", "ranked_completer_candidate.go:Less"]}
{"id": "C50", "title": "Empty dictionary answers queries", "statement": "The dictionary built from no keys contains nothing and no non-empty prefix can be followed in it.", "quantifier": "every query on the empty dictionary", "why_tests_cant": "Every query.", "anchors": ["dictionary_builder.go:BuildDictionary", "dictionary_builder.go:fixBlock"]}
{"id": "C51", "title": "Command line values are clamped", "statement": "dawgtool stores each tab-separated value clamped to [0, MaxInt32].", "quantifier": "every line", "why_tests_cant": "All integers.", "anchors": ["cmd/dawgtool/main.go:processLine"]}
{"id": "C52", "title": "dawgtool -s accepts any lexicon", "statement": "With -s the lines are sorted so that every insertion is accepted, with and without -u.", "quantifier": "every lexicon", "why_tests_cant": "Every lexicon.", "anchors": ["cmd/dawgtool/main.go:handleBuildDict"]}
{"id": "C53", "title": "End-to-end file round trip", "statement": "Lexicon -> build -> file -> load -> lookup/complete/index answers as on the in-memory objects: exactly the inserted entries.", "quantifier": "every lexicon", "why_tests_cant": "Composition of all components over all lexicons.", "anchors": ["cmd/dawgtool/main.go:handleBuildDict", "cmd/dawgtool/main.go:handleLoadDict"]}
{"id": "C54", "title": "Dawg.Clear resets the Dawg", "statement": "After Clear every size and counter of the Dawg is that of a new Dawg.", "quantifier": "every Dawg", "why_tests_cant": "Every state.", "anchors": ["dawg.go:Clear"]}
{"id": "C55", "title": "Heap order of candidates", "statement": "container/heap with RankedCompleterCandidateQueue always exposes at position 0 a candidate of maximal value, and Push/Pop neither lose nor duplicate candidates.", "quantifier": "every sequence of pushes and pops", "why_tests_cant": "Every heap shape.", "anchors": ["ranked_completer_candidate.go", "ranked_completer.go:enqueueCandidate"]}
{"id": "C56", "title": "UTF-C round trip: exact failure set", "statement": "UtfcDecode(UtfcEncode(s)) = s holds iff no character of s is coded as the single byte 0xBB while the codec is in its 21-bit mode.", "quantifier": "every text", "why_tests_cant": "State-dependent over all histories.", "anchors": ["utfc.go:UtfcDecode", "utfc.go:UtfcState.Follow"]}
{"id": "C57", "title": "What an older UtfcEncode result reads after a later call", "statement": "After UtfcEncode(s1) and then UtfcEncode(s2), the first slice reads as the first |e1| bytes of e2 ++ e1[|e2|:], where e1, e2 are the two encodings, for every earlier history and every slice growth policy.", "quantifier": "every history of UtfcEncode calls, every growth policy of append", "why_tests_cant": "Every history and buffer capacity.", "anchors": ["utfc.go:UtfcEncode", "utfc.go:sharedBuffer"]}
{"id": "C58", "title": "A builder after Finish only panics", "statement": "After a successful Finish every further InsertKeyValue with a non-negative length and every further Finish on that builder panics.", "quantifier": "every builder, key, value", "why_tests_cant": "Every builder state.", "anchors": ["dawg_builder.go:clear", "dawg_builder.go:Finish"]}
{"id": "C59", "title": "Dawg.Clear: what it resets", "statement": "After Clear the Dawg equals a new one iff NumOfMergedTransitions and NumOfMergingStates were already 0.", "quantifier": "every Dawg", "why_tests_cant": "Every state.", "anchors": ["dawg.go:Clear"]}
{"id": "C60", "title": "Lookups are exact for safe queries", "statement": "On a built dictionary, when the first byte of q that leaves the keys is not the low byte of an accepted value, ContainsString/FindString/FindStringValue answer exactly whether q was accepted and with which value, without panic.", "quantifier": "every entry set, every such query", "why_tests_cant": "Every query against every layout.", "anchors": ["dictionary.go:Follow", "dictionary_unit.go:dictLabel", "dictionary_builder.go:fixBlock"]}
{"id": "C61", "title": "Prefix search is exact for safe queries", "statement": "On a dictionary built from at least one key, for a query as in C60, FollowString(q) from Root does not panic and succeeds iff q is a prefix of an accepted key.", "quantifier": "every non-empty entry set, every such query", "why_tests_cant": "Every prefix of every layout.", "anchors": ["dictionary.go:FollowString", "dictionary_builder.go:arrangeChildNodes"]}
{"id": "C62", "title": "The lookup variants agree up to panics", "statement": "For any unit array: when FindString returns v >= 0, ContainsString is true and FindStringValue gives (true, v); when it returns -1, ContainsString is false and FindStringValue gives false with *value untouched; when it panics FindStringValue panics too, and ContainsString panics or is true. ...Len variants equal the plain ones on the first length bytes.", "quantifier": "every unit array (even corrupt), every query", "why_tests_cant": "Every dictionary content.", "anchors": ["dictionary.go:FindString", "dictionary.go:FindStringValue", "dictionary.go:ContainsStringLen", "dictionary.go:FindStringLen"]}
{"id": "C63", "title": "Dictionary unit packing: exact limits", "statement": "dictSetOffset accepts exactly the offsets below 2^29; in a non-leaf unit an accepted offset is read back iff it is below 2^21 or a multiple of 256, and then label, has-leaf and is-leaf are unchanged; a refused offset leaves the unit unchanged; label, has-leaf and value setters are independent of the other fields.", "quantifier": "every 32-bit unit, offset, label, value", "why_tests_cant": "2^32 x 2^32 combinations.", "anchors": ["dictionary_unit.go"]}
{"id": "C64", "title": "What can be followed in the empty dictionary", "statement": "In the dictionary built from no keys, FollowString(q) from Root succeeds exactly for q empty and for any number of zero bytes followed by one byte other than 1.", "quantifier": "every query on the empty dictionary", "why_tests_cant": "Every query.", "anchors": ["dictionary_builder.go:BuildDictionary", "dictionary_builder.go:fixBlock", "dictionary.go:Follow"]}
{"id": "C65", "title": "Completer enumeration, exactly", "statement": "From the node of a prefix p of some key (or Root), unless p is empty and the empty key was accepted: after StartString(index, P), from any earlier state, successive Next calls give once each, in increasing order, the accepted keys k with prefix p: Key() is P, the rest of k after p, and a NUL; Length() does not count the NUL; Value() is the value of k; then Next is false.", "quantifier": "every entry set, prefix p, string P and earlier completer state", "why_tests_cant": "Depth-first walk with an explicit stack over guides computed from shared subtrees; every layout.", "anchors": ["completer.go:Next", "completer.go:FindTerminal", "guide_builder.go:buildIndices"]}
{"id": "C66", "title": "Root completion repeats an empty key", "statement": "When the empty key was accepted, after StartString(Root, P) every Next returns true with the empty key and leaves the state unchanged, so the enumeration never ends.", "quantifier": "every entry set with the empty key, every P", "why_tests_cant": "Non-termination.", "anchors": ["completer.go:Next", "completer.go:StartStringLen"]}
{"id": "C67", "title": "StringToIndex on absent safe strings", "statement": "For a query that was not accepted and whose first byte that leaves the keys is not the low byte of an accepted value, StringToIndex is NotFound.", "quantifier": "every entry set with an index, every such query", "why_tests_cant": "Every query against every layout.", "anchors": ["indexer.go:BytesToIndex", "dictionary.go:Follow"]}
{"id": "C68", "title": "Ranked guides are always built", "statement": "BuildRankedGuideCmp succeeds for every Dawg and the dictionary built from it, for every comparator, whatever sort.SliceStable does within its contract, and the guide has one entry per dictionary unit (none for the empty lexicon).", "quantifier": "every entry set, comparator", "why_tests_cant": "Every layout and every comparator, even inconsistent ones.", "anchors": ["ranked_guide_builder.go:BuildRankedGuideCmp", "ranked_guide_builder.go:buildIndices", "ranked_guide_builder.go:turnLinksToUnits"]}
{"id": "C69", "title": "RankedCompleter enumeration, exactly", "statement": "With any comparator, from the node of a prefix p of some key (or Root), after StartString(index, P) from any earlier state: successive Next calls give each accepted key k with prefix p exactly once; Key() is P, the rest of k after p, and a NUL; Length() does not count the NUL; Value() is the value of k; then Next is false and stays false, and Next never panics. The empty key is included.", "quantifier": "every entry set, comparator, prefix p, string P and earlier completer state", "why_tests_cant": "A lazily expanded forest behind a priority queue, over guides of shared subtrees; every layout.", "anchors": ["ranked_completer.go:Next", "ranked_completer.go:findTerminal", "ranked_completer.go:findSibling", "ranked_completer.go:enqueueCandidate"]}
{"id": "C70", "title": "Read accepts only what Write produces", "statement": "On any stream of bytes, in any chunks, Read of each kind of object returns without panic; when it returns true, the bytes it consumed are exactly the serialisation of the object read.", "quantifier": "every byte stream and chunking", "why_tests_cant": "All byte streams, including corrupt ones.", "anchors": ["dictionary.go:Read", "guide.go:Read", "ranked_guide.go:Read", "index.go:Read"]}
{"id": "C71", "title": "What a failed Index.Read leaves", "statement": "When Index.Read returns false, either fewer than 4 bytes were available and the receiver is unchanged, or the receiver holds as many zero units as the first 4 bytes say.", "quantifier": "every byte stream", "why_tests_cant": "All byte streams.", "anchors": ["index.go:Read"]}
{"id": "C72", "title": "What each line stands for, exactly", "statement": "dawgtool takes a line as an entry exactly when, without -t, always (value 0), and with -t when it has a tab and its second field is a decimal numeral with an optional sign that fits in int64 (the value is clamped); with -t it panics exactly when there is no tab and exits otherwise.", "quantifier": "every line and flags", "why_tests_cant": "Every line.", "anchors": ["cmd/dawgtool/main.go:processLine"]}
{"id": "C73", "title": "Which lines are read", "statement": "Lines without \\n, not ending in \\r and shorter than 65536 bytes are read back as they are, also with \\r\\n and also when the last one lacks the \\n; from the first line of 65536 bytes or more on, nothing is read and no error is reported.", "quantifier": "every file", "why_tests_cant": "Every file, of any size.", "anchors": ["cmd/dawgtool/main.go:handleBuildDict", "cmd/dawgtool/main.go:handleLoadDict"]}
{"id": "C74", "title": "dawgtool -s -u sorts by encoded length", "statement": "With -s -u lines are inserted by increasing length of their UTF-C encoding, equal lengths in the order of the file; dawgtool stops unless the encoded keys in that order never decrease. Encoded keys have no zero byte.", "quantifier": "every lexicon", "why_tests_cant": "Every lexicon; the comparison shares one buffer between the two encodings.", "anchors": ["cmd/dawgtool/main.go:handleBuildDict", "utfc.go:UtfcEncode"]}
{"id": "C75", "title": "When dawgtool writes a file", "statement": "A file is written when the keys in order of insertion never decrease, they have fewer than 2097152 prefixes and, with an index, there is a key; nothing is written when the keys decrease, or with -g -i or -r -i and no key.", "quantifier": "every lexicon and flags", "why_tests_cant": "Composition of all builders over all lexicons.", "anchors": ["cmd/dawgtool/main.go:handleBuildDict"]}
{"id": "C76", "title": "What dawgtool answers from its files, exactly", "statement": "For a file dawgtool wrote and the same flags, and queries as in C60: without -g and -r, the entries whose keys are non-empty prefixes of the query, and a panic with -i; with -g, the entries whose keys start with the query, in order, and with -i their number, their list and the position of the query among them, except that a query for an accepted empty key never ends; with -r and no -i, the entries whose keys start with the query, by non-increasing value. Values are those given, clamped, and without -t every query without a NUL is such a query.", "quantifier": "every lexicon, flags and list of queries", "why_tests_cant": "Composition of all components over all lexicons and queries.", "anchors": ["cmd/dawgtool/main.go:handleBuildDict", "cmd/dawgtool/main.go:handleLoadDict"]}
{"id": "C77", "title": "What an index with a ranked guide holds, exactly", "statement": "With a comparator that is a total order, BuildIndex over a ranked guide succeeds exactly when there is a key; the index counts exactly the keys that, at each key which is a proper prefix of them, go on with a byte below which there is a better value than that of the prefix; IndexToString(i) is the i-th of them: prefixes first, then by best value below, then by byte; it is complete exactly when TotalCount is the number of keys.", "quantifier": "every entry set and total order on values", "why_tests_cant": "Every interleaving of values along every chain of prefixes, over shared subtrees whose order differs.", "anchors": ["index_builder.go:BuildIndex", "indexer.go:IndexToBytes", "index.go:TotalCount"]}
{"id": "C78", "title": "StringToIndex with a ranked guide", "statement": "For a key the index holds, StringToIndex is at most its position, and equal to it exactly when all keys at smaller positions are bytewise smaller.", "quantifier": "every entry set, total order and held key", "why_tests_cant": "Every order of children, at every level.", "anchors": ["indexer.go:BytesToIndex"]}
{"id": "C79", "title": "StringToIndex with a ranked guide, absent strings", "statement": "For a safe query (as in C60) StringToIndex returns, and returns NotFound when the query is not a key.", "quantifier": "every entry set, total order and safe query", "why_tests_cant": "Every query against every layout.", "anchors": ["indexer.go:BytesToIndex"]}
{"id": "C80", "title": "What dawgtool -r -i answers from its files", "statement": "For a file dawgtool wrote with -r -i and the same flags, and queries as in C60: the words listed are the keys an index with a ranked guide holds (C77), in its order, with their number; a query gives the entries whose keys start with it by non-increasing value, NotFound if it is no key and, if it is a word listed, at most its position, which it is exactly when the words before it are bytewise smaller.", "quantifier": "every lexicon, flags and queries", "why_tests_cant": "Composition of all builders and readers over all lexicons.", "anchors": ["cmd/dawgtool/main.go:handleBuildDict", "cmd/dawgtool/main.go:handleLoadDict"]}
{"id": "C81", "title": "What is built depends on the accepted entries only", "statement": "Two insertion histories that leave the same entries (values modulo 2^31) give the same Dawg, whatever was refused or replaced on the way and whatever the initial hash table sizes. With a total order on values the ranked guide does not depend on how sort.SliceStable works within its contract. Two dawgtool lexicons with keys that never decrease and the same entries give byte-identical files for the same -g, -r and -i, whatever -t, -s and -u are.", "quantifier": "every pair of histories or lexicons with equal entries", "why_tests_cant": "Hash consing with tables of any size, recycled units and any order of insertions refused or replaced; pairs of inputs.", "anchors": ["dawg_builder.go:InsertKeyValue", "dawg_builder.go:Finish", "ranked_guide_builder.go:buildIndices", "cmd/dawgtool/main.go:handleBuildDict"]}
{"id": "C82", "title": "Short forms of the calls", "statement": "InsertString inserts with value 0; Build gives the dictionary of BuildWithUnused and fails when it does; after Clear a Guide or RankedGuide has no units, its navigation panics and its file is that of an empty guide.", "quantifier": "every builder, list of keys, Dawg and guide", "why_tests_cant": "Every state.", "anchors": ["dawg_builder.go:InsertString", "dictionary_builder.go:Build", "guide.go:Clear", "ranked_guide.go:Clear"]}
{"id": "C83", "title": "How dawgtool reads its command line", "statement": "A command line has settings (-x or --x for the switches b t g r i s u, -x=v with one of the Boolean words of strconv.ParseBool; -l and -d with the path as next argument or after =), then operands after -- or from the first argument that is shorter than two bytes or does not start with -; it can be read in one way; the last setting of a name counts; the first operand is the lexicon unless -l is given (other than -), the second the dictionary unless -d is. A request for help exits with 0 and any other command line with 2; a lexicon or dictionary that cannot be opened or created exits with 1. In these cases nothing is written to standard output and no file is changed.", "quantifier": "every list of arguments", "why_tests_cant": "Every way to combine, repeat and spell flags, with operands that look like flags.", "anchors": ["cmd/dawgtool/main.go:main"]}
{"id": "C84", "title": "What a run of dawgtool can change", "statement": "Whatever the arguments, files and libraries do, a run only adds to standard output, and the only file it can change is the dictionary path of a command line with -b.", "quantifier": "every command line, file system and environment", "why_tests_cant": "All failures at all points.", "anchors": ["cmd/dawgtool/main.go:main"]}
{"id": "C85", "title": "What dawgtool -b prints and writes", "statement": "When the keys of the lexicon never decrease in the order of insertion: the output is the warnings of the lines and a count after every 10000 keys, then the counts of the Dawg, of the dictionary, and if asked for of guide and index, in decimal; the dictionary file has exactly the dictionary, guide and index; no other file is changed. The run succeeds unless there are at least 2097152 prefixes of keys (then it may exit with 1 and leave the dictionary empty) or an index is wanted and there are no keys (then it panics and leaves a file without it).", "quantifier": "every lexicon, flags and environment that behaves", "why_tests_cant": "Exact output and file for all lexicons.", "anchors": ["cmd/dawgtool/main.go:main", "cmd/dawgtool/main.go:handleBuildDict", "cmd/dawgtool/main.go:processLine"]}
{"id": "C86", "title": "A failed build leaves the dictionary file as it was", "statement": "When dawgtool -b does not succeed, the dictionary file is what it was before.", "quantifier": "every failing run", "why_tests_cant": "Every point of failure.", "anchors": ["cmd/dawgtool/main.go:main"]}
{"id": "C87", "title": "What a failed build leaves, exactly", "statement": "Every lexicon either has entries that never decrease, or a first line that stops the run: without a tab under -t (panic), with a value that is no int64 numeral (exit 1), or with a key before the last one (its warning, then exit 1). A build stopped so prints what belongs to the lines before it, leaves the dictionary file empty and other files alone. With the same path for both, the lexicon is replaced by a dictionary of no keys.", "quantifier": "every lexicon and flags", "why_tests_cant": "Every point of failure in every lexicon.", "anchors": ["cmd/dawgtool/main.go:main", "cmd/dawgtool/main.go:processLine", "cmd/dawgtool/main.go:handleBuildDict"]}
{"id": "C88", "title": "What dawgtool prints when loading", "statement": "For a dictionary file that starts with what the flags ask for, and queries as in C60: the output is one line per query, with (#n) or (not found) under -i and the entries found as ' key = value;', and under -i the line 'Total words' and the words numbered from 0; no file is changed. With -i but neither -g nor -r it panics after the answers; with -g, an empty query and an empty key it does not end.", "quantifier": "every file, flags and queries", "why_tests_cant": "Exact output over all dictionaries and queries.", "anchors": ["cmd/dawgtool/main.go:main", "cmd/dawgtool/main.go:handleLoadDict"]}
{"id": "C89", "title": "Building and then loading, as two runs", "statement": "After a successful build a second run that loads the file with the same parts or fewer (guide of the same kind; index) prints the answers for exactly the entries of the lexicon.", "quantifier": "every lexicon, queries and pair of command lines", "why_tests_cant": "Two runs over all inputs, through the file system.", "anchors": ["cmd/dawgtool/main.go:main"]}
{"id": "C90", "title": "The UTF-C format, exactly", "statement": "UtfcEncode writes each character of a text in the first form that applies: one byte C0..FF for the 64 characters of the second alphabet (A-Z a-z 0-9 space hyphen when it is the Latin one); one byte for the current block of 128; two bytes B1.. for the 2560 special characters, of which kana become the current block; from U+2600 on two bytes in the current block of 32768 or three bytes A0.. that change it; two bytes 80.. that change the block otherwise. Zero bytes are replaced by a mark in front. Leaving a block makes its 64 chosen characters the second alphabet. Start: block 0, second alphabet U+0410.", "quantifier": "every text", "why_tests_cant": "The form of a character depends on all characters before it.", "anchors": ["utfc.go:UtfcState.Follow", "utfc.go:UtfcEncode"]}
{"id": "C91", "title": "Texts in one alphabet are short in UTF-C", "statement": "ASCII without NUL is written as it is; ASCII with U+0410-U+044F one byte per character (C0 + distance from U+0410); texts up to U+02FF one byte for ASCII and two for the others; texts of one block of 128 between U+0300 and U+1FFF and A-Za-z0-9 space hyphen one byte per character, plus one if a character of the block outside U+0410-U+044F occurs; texts of U+4E00-U+9FFF and those Latin characters two bytes per ideograph, one per Latin character, plus one.", "quantifier": "every such text", "why_tests_cant": "Texts of any length.", "anchors": ["utfc.go:UtfcState.Follow", "utfc.go:UtfcEncode"]}
{"id": "C92", "title": "UTF-C is never longer than UTF-8", "statement": "UtfcEncode(s) has at most as many bytes as s has in UTF-8.", "quantifier": "every text", "why_tests_cant": "Every order of characters.", "anchors": ["utfc.go:UtfcState.Follow"]}
{"id": "C93", "title": "UtfcDecode accepts any bytes", "statement": "UtfcDecode returns for every byte array without panic.", "quantifier": "every byte array", "why_tests_cant": "All byte arrays, also those UtfcEncode never gives.", "anchors": ["utfc.go:UtfcDecode"]}
{"id": "C94", "title": "Listed alphabets are kept", "statement": "After a character of a block listed in auxOffset and a return to Latin, each of the 64 characters from the listed place takes one byte.", "quantifier": "every entry of auxOffset, every character of its block, every one of the 64 characters", "why_tests_cant": "The table is only used for the block that is left.", "anchors": ["utfc.go:auxOffset", "utfc.go:UtfcState.Follow"]}
{"id": "C95", "title": "UTF-C and UTF-8, exactly", "statement": "3 * |UtfcEncode(s)| <= 4 * |UTF-8 of s|, and for every n there is a text with 3n bytes in UTF-8 and 4n in UTF-C.", "quantifier": "every text", "why_tests_cant": "Every order of characters.", "anchors": ["utfc.go:UtfcState.Follow"]}
{"id": "C96", "title": "UtfcDecode on any bytes, exactly", "statement": "UtfcDecode always ends. It returns a text with one character for one to three bytes, or it panics and the last one or two bytes are to blame: without them it returns a text, and with one or two bytes appended it returns that text and one more character.", "quantifier": "every byte array", "why_tests_cant": "All byte arrays, also those UtfcEncode never gives.", "anchors": ["utfc.go:UtfcDecode"]}
{"id": "C97", "title": "Failing writes while building", "statement": "With any answers of the writes to the dictionary file a run of dawgtool is the same as with writes that take all bytes, or it ends with status 1 having printed a part of the same output and left a part of the same file; a run that succeeds has written the whole file.", "quantifier": "every command line, lexicon, file system and sequence of short writes and errors", "why_tests_cant": "Each write can fail after any number of bytes.", "anchors": ["cmd/dawgtool/main.go:main", "cmd/dawgtool/main.go:handleBuildDict", "dictionary.go:Dictionary.Write", "guide.go:Guide.Write", "index.go:Index.Write"]}
{"id": "C98", "title": "An incomplete file is refused", "statement": "A dictionary file cut short anywhere in the parts that the options ask for ends a load with status 1, before any answer is printed and without touching a file.", "quantifier": "every lexicon, length and chunking of reads", "why_tests_cant": "Every length of every file.", "anchors": ["cmd/dawgtool/main.go:handleLoadDict", "dictionary.go:Dictionary.Read", "guide.go:Guide.Read", "index.go:Index.Read"]}
{"id": "C99", "title": "Followers may use the package", "statement": "UtfcFollow hands a follower the bytes of UtfcEncode, also when the follower calls UtfcEncode itself.", "quantifier": "every text and follower", "why_tests_cant": "The shared state is changed between two bytes.", "anchors": ["utfc.go:UtfcFollow", "utfc.go:UtfcState.Follow"]}
{"id": "C100", "title": "The percentage of unused elements", "statement": "The percentage that dawgtool prints is 100 * unused / size rounded to the nearest hundredth, although it is rounded to a float64 in between.", "quantifier": "every number of unused elements below 2^32 and every size", "why_tests_cant": "All pairs of numbers.", "anchors": ["cmd/dawgtool/main.go:handleBuildDict"]}
{"id": "C101", "title": "A length greater than the key never inserts", "statement": "InsertKeyValue with a length greater than len(key) returns false and leaves the builder as it is when the key differs from the last accepted key first in a smaller byte; otherwise it panics. It never returns true.", "quantifier": "every history, key and greater length", "why_tests_cant": "Every state of the builder and every length.", "anchors": ["dawg_builder.go:InsertKeyValue"]}
{"id": "C102", "title": "A negative length is harmless", "statement": "InsertKeyValue with a negative length is refused, or leaves the other keys as they are.", "quantifier": "every builder, key and negative length", "why_tests_cant": "Every state of the builder.", "anchors": ["dawg_builder.go:InsertKeyValue", "dawg_builder.go:Finish"]}
{"id": "C103", "title": "The test data of the repository", "statement": "dawgtool -b -t -g makes test/dictionary.dawg out of test/lexicon.txt, byte by byte, and answers test/query.txt from it; TestUtfc and TestUtfcZeros pass; TestSimple finds the inserted words and no others, and TestZeros finds nothing.", "quantifier": "every environment that behaves, for the files; the strings of the tests", "why_tests_cant": "Relates the model to a file that the program wrote.", "anchors": ["cmd/dawgtool/main.go:main", "utfc_test.go:TestUtfc", "dawg_test.go:TestSimple"]}
{"id": "C104", "title": "Strings that are not UTF-8", "statement": "UtfcFollow and UtfcEncode see, in any string, each valid UTF-8 sequence as its character and every other byte as U+FFFD; overlong forms, surrogates and cut sequences are no characters.", "quantifier": "every byte string", "why_tests_cant": "Arbitrary bytes.", "anchors": ["utfc.go:UtfcFollow", "utfc.go:UtfcEncode"]}
{"id": "C105", "title": "UtfcEncode is injective on strings", "statement": "Two strings have the same encoding only if they are equal (false of strings that are not UTF-8; true of valid ones, and every string encodes as exactly one valid string).", "quantifier": "every pair of byte strings", "why_tests_cant": "Pairs of arbitrary strings.", "anchors": ["utfc.go:UtfcFollow", "utfc.go:UtfcEncode", "cmd/dawgtool/main.go:handleBuild"]}
{"id": "C106", "title": "Keys with a zero byte", "statement": "A key with a zero byte is refused, or found afterwards (false). It is accepted if it is not less than the last accepted key, or if that one is the same key, a zero byte and more; it is stored up to its first zero byte, with a value of the builder's own; other keys are not affected unless they are the same up to there. After the same key up to a zero byte the call panics if the value of that one is large, and any key can be lost if it is small and positive.", "quantifier": "every history of byte strings, in any order", "why_tests_cant": "Arbitrary histories.", "anchors": ["dawg_builder.go:InsertKeyValue", "dawg_builder.go:Finish"]}
{"id": "C107", "title": "The order of ranked completions", "statement": "Whatever total order the guide was built with, RankedCompleter gives every entry below the prefix once, and always next, of the keys whose earlier siblings have all been entered, one with the greatest value, and of these the one opened last. There is one such order.", "quantifier": "every total order, history, prefix", "why_tests_cant": "Every comparator and dictionary, with equal values.", "anchors": ["ranked_completer.go:Next", "ranked_completer_candidate.go:Less", "ranked_guide_builder.go:BuildRankedGuideCmp"]}
{"id": "C108", "title": "Search by text over UTF-C keys", "statement": "In a dictionary whose keys are UtfcEncode of texts, UtfcFollow with a follower that walks in the dictionary reaches a node exactly for the texts with which stored texts start, and the completers started there give exactly the stored texts that start with it.", "quantifier": "every set of texts, every text", "why_tests_cant": "All texts and all alphabets; an encoding could start with another one by accident.", "anchors": ["utfc.go:UtfcFollow", "dictionary.go:Follow", "completer.go:Next", "ranked_completer.go:Next"]}
{"id": "C109", "title": "UtfcState objects are independent and can be resumed", "statement": "With any number of UtfcState objects and any sequence of NewUtfcState, Clear, Copy and Follow, each Follow hands over exactly the bytes that the character adds to the encoding of what was typed into that object (or into the one it was copied from); a character that is refused has no effect.", "quantifier": "every sequence of calls on any number of objects", "why_tests_cant": "Every history of calls.", "anchors": ["utfc.go:NewUtfcState", "utfc.go:Copy", "utfc.go:Follow"]}
{"id": "C110", "title": "The zero UtfcState is ready to use", "statement": "A UtfcState declared as a variable encodes like one of NewUtfcState (false: it encodes as after U+0100).", "quantifier": "every text", "why_tests_cant": "Every text.", "anchors": ["utfc.go:UtfcState", "utfc.go:NewUtfcState"]}
{"id": "C111", "title": "Lookups in any file end", "statement": "On any units that Read accepts (corrupt or hostile files too) every lookup ends: it finds a value exactly when units with agreeing labels lead to one, and panics exactly when a step or the value lies outside the units.", "quantifier": "every unit array, every key", "why_tests_cant": "All contents of a file, not only those that a builder wrote.", "anchors": ["dictionary.go:FollowString", "dictionary.go:FindString", "dictionary.go:Read"]}
{"id": "C112", "title": "Completing over any file ends", "statement": "On any units and guide that Read accepts, Next of both completers ends, and returns true finitely often (false: a unit can be its own child; exact condition proved).", "quantifier": "every unit array and guide", "why_tests_cant": "All contents of files, and a loop that never ends cannot be observed by a test.", "anchors": ["completer.go:Next", "completer.go:FindTerminal", "ranked_completer.go:Next", "guide.go:Read"]}
{"id": "C113", "title": "Calls from several goroutines", "statement": "Calls of UtfcFollow (each with its own follower) and of UtfcEncode made by several goroutines do what they do alone (false). They do when no two overlap, when the goroutines use UtfcState objects of their own, and, for UtfcFollow, when all texts are ASCII or \u0410-\u044f.", "quantifier": "every number of calls, all texts and followers, every order of the steps", "why_tests_cant": "Schedules of goroutines cannot be enumerated.", "anchors": ["utfc.go:sharedState", "utfc.go:UtfcFollow", "utfc.go:UtfcEncode"]}
{"id": "C114", "title": "What dawgtool writes to standard error", "statement": "Every command line can be read, asks for help (usage, status 0) or has one fault (its message and the usage, status 2). Any other run that does not succeed by exiting writes one log line and ends with status 1: it names the file that cannot be opened or created and why, the value that is no number and whether it is out of range, the key that is not in order, or the part that could not be built, written or read - the parts before it are in the file. Quoted text has no control characters and stands for exactly the bytes quoted.", "quantifier": "every command line, file system, lexicon and sequence of failing writes", "why_tests_cant": "Messages over all inputs.", "anchors": ["cmd/dawgtool/main.go:main", "cmd/dawgtool/main.go:processLine", "cmd/dawgtool/main.go:handleBuildDict", "cmd/dawgtool/main.go:handleLoadDict"]}
{"id": "C115", "title": "An Index over any file", "statement": "On any units, guide and index that Read accepts, StringToIndex, IndexToString and BuildIndex end (false; exact conditions proved for the first two, and what BuildIndex needs to end). When the first two panic, and what they give, is stated for every contents. What StringToIndex finds and what IndexToBytes gives are keys of the dictionary all the same.", "quantifier": "every unit array, guide and index, every query and number", "why_tests_cant": "All contents of files, and a loop that never ends cannot be observed by a test.", "anchors": ["indexer.go:BytesToIndex", "indexer.go:IndexToBytes", "index_builder.go:buildIndices", "index.go:Read"]}
{"id": "C116", "title": "Lines of files read piece by piece", "statement": "However reads cut a file, the scanner gives the lines of what is delivered before the end, an error or 101 reads in a row that give nothing: they end with \\n or with the text, one \\r before that is left out, and nothing follows a line of 65536 bytes or more. Err says which of these it was.", "quantifier": "every sequence of reads, with and without an error at the end", "why_tests_cant": "All ways to cut all files, and lines beyond the buffer.", "anchors": ["cmd/dawgtool/main.go:handleBuildDict", "cmd/dawgtool/main.go:handleLoadDict", "cmd/dawgtool/main.go:main"]}
{"id": "C117", "title": "Failing reads of the lexicon", "statement": "A run of dawgtool whose reads of the lexicon fail says so and does not succeed (false: Err is not called; the dictionary is made from what was delivered, a truncated key included, and of a directory a dictionary of no keys). Exactly: a run depends on nothing but what is delivered.", "quantifier": "every command line, file system and sequence of reads", "why_tests_cant": "Read errors at every place of every file.", "anchors": ["cmd/dawgtool/main.go:handleBuildDict", "cmd/dawgtool/main.go:handleLoadDict"]}
{"id": "C118", "title": "A lookup is right, or panics", "statement": "The first byte that leaves the keys either stops the lookup or leads to the unit of a value with that low byte. From there every further byte panics; without one, ContainsString gives bit 8 of the value, and FindString panics if that is set - in dictionaries of up to 2^21 units, and for values with bit 9 set in all. So in those FindString is right or panics.", "quantifier": "every history, dictionary and byte string", "why_tests_cant": "Which byte leads to which value depends on the layout of the whole dictionary.", "anchors": ["dictionary.go:Follow", "dictionary.go:ContainsString", "dictionary.go:FindString", "dictionary_unit.go:dictOffset"]}
{"id": "C119", "title": "The guide, exactly", "statement": "The unit of the guide at the node of a prefix holds the smallest byte with which keys go on after it and the next greater byte after the one that led there, 0 for none; the other units are zero.", "quantifier": "every history and dictionary", "why_tests_cant": "Every unit of every guide.", "anchors": ["guide_builder.go:buildIndices", "guide_builder.go:BuildGuide", "guide_unit.go:Child"]}
{"id": "C120", "title": "StringToIndex of absent strings, exactly", "statement": "StringToIndex never panics. A string that is no key is not found, except where its last byte leads from a prefix of keys to the unit of a value with that low byte and bit 8 set, and a key goes on with a greater byte; it is then given the number of smaller keys.", "quantifier": "every history, dictionary, guide, index and byte string", "why_tests_cant": "Which byte leads to which value depends on the layout of the whole dictionary.", "anchors": ["indexer.go:BytesToIndex", "dictionary.go:Follow", "guide.go:Child"]}
{"id": "C121", "title": "Any initial hash table size works", "statement": "NewDawgBuilderWithSize(n) gives a builder that behaves as one with any other size. (False of n < 1: with a negative size the first call panics; with 0 the first key is accepted, a later call panics if its key is greater, and Finish gives the Dawg of the single entry of the empty key with the value 0, whatever was inserted.)", "quantifier": "every size below 1, every history", "why_tests_cant": "Every history.", "anchors": ["dawg_builder.go:NewDawgBuilderWithSize", "dawg_builder.go:init", "dawg_builder.go:InsertKeyValue", "dawg_builder.go:findTransition", "dawg_builder.go:Finish"]}
{"id": "C122", "title": "StringToIndex with a ranked guide counts the keys that are passed", "statement": "For a key k held by an index with a ranked guide, StringToIndex is the number of keys that stand before k in the index and for which, with p the common part with k and c the byte of k behind it, all keys up to theirs that go on after p do so with bytes below c. The key at place 0 gets 0.", "quantifier": "every history, total order of values, dictionary, ranked guide, index and held key", "why_tests_cant": "Exact numbers over all lexicons and all orders of siblings.", "anchors": ["indexer.go:BytesToIndex", "indexer.go:IndexToBytes", "ranked_guide_builder.go:BuildRankedGuide", "index_builder.go:buildIndices"]}
{"id": "C123", "title": "BuildGuide rejects a dictionary of other keys", "statement": "BuildGuide(dawg, dict) returns nil, and does not panic, if a key of the Dawg is not in the dictionary. (False: a missing byte is seen only at units that are not marked yet, and units are shared; a byte that leads to a value may panic.) It returns a guide if every prefix of the keys of the Dawg is one of the dictionary, nil only if one is not, and nil whenever one is missing behind a prefix that is, but for its last byte, the only one to go on to its keys and values.", "quantifier": "every two histories, Dawg and dictionary", "why_tests_cant": "All pairs of lexicons.", "anchors": ["guide_builder.go:BuildGuide", "guide_builder.go:buildIndices", "dictionary.go:Follow"]}
{"id": "C124", "title": "BuildRankedGuide rejects a dictionary of other keys", "statement": "BuildRankedGuide(dawg, dict) and BuildRankedGuideCmp return nil, and do not panic, if a key of the Dawg is not in the dictionary. (False for the same reasons as C123.) They return a guide if every key of the Dawg is one of the dictionary, whatever the values and the comparison, nil only if one is not, and nil whenever a key or a prefix is missing at a prefix that is, but for its last byte, the only one to go on to its keys and values.", "quantifier": "every two histories, Dawg, dictionary, sort and comparison", "why_tests_cant": "All pairs of lexicons.", "anchors": ["ranked_guide_builder.go:BuildRankedGuideCmp", "ranked_guide_builder.go:buildIndices", "ranked_guide_builder.go:findMaxValue", "ranked_guide_builder.go:enumerateLinks"]}
{"id": "C125", "title": "What BuildRankedGuide accepts, BuildGuide accepts", "statement": "For a Dawg and any dictionary, made from other keys or read from any bytes: if BuildRankedGuide or BuildRankedGuideCmp returns a guide, BuildGuide returns one too and does not panic. (The other direction is false: BuildGuide does not look for terminators.)", "quantifier": "every history, any dictionary units, any sort and comparison", "why_tests_cant": "All pairs of a lexicon and a dictionary.", "anchors": ["guide_builder.go:BuildGuide", "guide_builder.go:buildIndices", "ranked_guide_builder.go:BuildRankedGuideCmp", "ranked_guide_builder.go:buildIndices"]}
{"id": "C126", "title": "The guide builders end on any dictionary", "statement": "BuildGuide and BuildRankedGuide end for every Dawg and every dictionary, whatever its units are (read from any bytes). (False for BuildRankedGuide: findMaxValue goes round for ever where units lead back to each other. True for BuildGuide.)", "quantifier": "every history and any dictionary units", "why_tests_cant": "All byte strings that a dictionary can be read from.", "anchors": ["guide_builder.go:BuildGuide", "guide_builder.go:buildIndices", "ranked_guide_builder.go:BuildRankedGuide", "ranked_guide_builder.go:findMaxValue"]}
{"id": "C127", "title": "The guide builders do not panic on units that lead nowhere outside", "statement": "For every Dawg and every dictionary with a multiple of 8 units and a set of units, the root among them, from which every byte leads to a unit, and to one of the set where its label is that byte: BuildGuide returns a guide or nil, and BuildRankedGuide and BuildRankedGuideCmp do not panic, and return a guide or nil if no units of the set lead back to themselves.", "quantifier": "every history, any such units, every sort and comparison", "why_tests_cant": "All byte strings that a dictionary can be read from.", "anchors": ["guide_builder.go:BuildGuide", "guide_builder.go:buildIndices", "ranked_guide_builder.go:BuildRankedGuideCmp", "ranked_guide_builder.go:turnLinksToUnits", "dictionary.go:Follow"]}
{"id": "C128", "title": "Keys without values are looked up exactly", "statement": "If all values are multiples of 256, as when no values are given: Contains and Find are exact for every string without zero bytes, StringToIndex returns NotFound for each of them that is no key, and BuildGuide and BuildRankedGuide return a guide or nil for the Dawg of any other keys.", "quantifier": "every such history, query, Dawg, sort and comparison", "why_tests_cant": "All strings and all lexicons.", "anchors": ["dictionary.go:ContainsString", "dictionary.go:FindString", "dictionary.go:FindStringValue", "indexer.go:StringToIndex", "guide_builder.go:BuildGuide", "ranked_guide_builder.go:BuildRankedGuideCmp"]}
