# A Rocq (Coq) model of deNULL/dawg

Coq 8.16.1, std++ and the standard library only.  The model and the proofs are in
`rocq/theories/`.  `Properties_*.v` hold the property theorems, the examples that
show their hypotheses to be satisfiable, and `Print Assumptions` for each.
`properties.jsonl` lists the properties, `MANIFEST.json` which theorems settle
which, and the table at the end repeats it.

## Trusted base

* Coq's kernel (`coqc` 8.16.1, with `vm_compute` for concrete cases).
* `Print Assumptions` says "Closed under the global context" for every property
  theorem: no axioms, neither our own nor the library's.  (`coqchk` and the gate
  list `Coq.ssr.ssrunder.Under_rel.*`, module-type fields of a file of Coq's own
  library that std++ loads; no theorem here depends on it.)
* That the definitions say what the Go code does.  Nothing was run; each definition
  cites the lines it models.  The repository has a file that the program wrote,
  test/dictionary.dawg; the model makes the same 1544 bytes out of test/lexicon.txt
  (C103_file), and the repository's tests pass on it (Properties_Tests.v).
* The specifications the theorems use: `UtfcSpec.v`, `UtfcFormatSpec.v`, `DawgSpec.v`, `DictSpec.v`,
  `GuideSpec.v`, `RankedSpec.v`, `RankedIndexSpec.v`, `RankedOrderSpec.v`, `CliSpec.v`, `Utf8Range.v` and the definitions in the
  `Properties_*.v` files.
* The models of Go itself and of its standard library, listed below.

## How the code is modelled

* `Go.v`: Go run-time conventions.  Every modelled function returns
  `res A = Ok a | Panic | Hang`.  `Panic` is a Go run-time panic (index out of
  range, division by zero, nil).  `Hang` is returned by a loop or recursion whose
  fuel is used up; the fuel of each loop is chosen such that using it up means
  the Go loop really goes on for ever (for instance a probe loop that has visited
  every slot of its hash table).  Where that is not so the comment says so, and
  the theorems either exclude `Hang` or hold for all fuel.
* `uint32`/`uint8` are `N` with the wrap-around (`mod 2^32`, `mod 256`) written
  where Go can wrap.  `int32` values are `Z`.  `int` is taken to be 64 bits wide,
  and lengths are `nat`/`Z` without wrap.
* A slice is a list.  A slice used as a stack only (`unfixedUnits`,
  `unusedUnits`, `indexStack`) is a list whose head is the end of the slice.
  Aliasing is modelled where it can be seen: `UtfcEncode`'s shared buffer
  (`UtfcHeap.v`, with an explicit heap of arrays and any growth policy of
  `append`).
* A method with pointer receiver is a function returning the new receiver.
* Running out of memory is not modelled.

Modelled standard library, as parameters with a contract or from its source:

| Part | Model |
| --- | --- |
| `sort.SliceStable` | any function with the contract `sorter` / `stable_sorter` (Ranked.v, Cli.v): permutes always; sorted, and equivalent elements in place, for strict weak orders |
| `container/heap` | its source (Heap.v) |
| `io.Reader`, `io.Writer`, `io.ReadFull`, `encoding/binary` | Serial.v: chunks of any size, then an error; writers that take any number of bytes, with or without an error |
| `range` over a string | UTF-8 decoding (Utf8.v), proved equal to the rule of the language over the table of UTF-8 (Utf8Range.v, C104) |
| `bufio.Scanner` | its source (Scanner.v), over reads of any size that may stall or fail; Cli.v has the lines only (C116) |
| `strings.Split`, `strconv.Atoi` | Cli.v |
| `flag.Parse`, `strconv.ParseBool`, `%d`, `log.Fatal`, `os.Open`, `os.Create` | Main.v |
| growth of slices by `append` | any function (UtfcHeap.v) |

## Which code is modelled

| Go file | Model | Notes |
| --- | --- | --- |
| utfc.go | Utfc.v, UtfcHeap.v, UtfcShared.v, UtfcSearch.v | all |
| bit_pool.go | BitPool.v | all |
| link_table.go | LinkTable.v | all |
| base_types.go, base_unit.go, dawg_unit.go, dawg.go, dawg_builder.go | Dawg.v | all; `object_pool.go` is unused |
| dictionary_unit.go, dictionary_extra_unit.go, dictionary.go, dictionary_builder.go | Dict.v, Serial.v | all |
| guide.go, guide_unit.go, guide_builder.go | Guide.v, Serial.v | all |
| completer.go | Completer.v | all |
| index.go, index_builder.go, indexer.go | Index.v, Serial.v | all |
| ranked_guide*.go | Ranked.v, Serial.v | all; comparators are pure functions |
| ranked_completer*.go | RankedCompleter.v, Heap.v | all |
| cmd/dawgtool/main.go | Cli.v, Scanner.v, Main.v | all; Cli.v has the functions without output, Main.v whole runs: command line, files, standard output and error, exit status. Left out: the trace of a panic, links between paths, failing writes to standard output. Parameters (`texts`): time stamp of the log, program name, reasons of the system, strconv.IsPrint from U+0080 on. Messages of flag, log and strconv are those of recent versions of Go (DEL is quoted as `\x7f`, by older ones as `\u007f`) |

Not modelled: concurrent use (the package has no
goroutines), except for the interleavings of whole steps of `UtfcFollow` and
`UtfcEncode` calls, which share package-level variables (Properties_Tasks.v,
C113); performance and memory.

## How the properties are proved

UTF-C (C01-C08, C56, C57; Utfc*.v): induction over the text with the invariant
"encoder state = decoder state"; a single byte 0xBB in 21-bit mode is misread by
the decoder, and the exact failure set is C56.  The format (C90) is a relation in
arithmetic that the encoder is shown to follow; lengths (C91, C92, C94) are counted on
that relation with a potential for the place.  Any bytes (C93): a step reads a complete
form of at most three bytes or meets the end.

Dawg builder (C09-C20, C54, C58, C59; Dawg*.v, Tree*.v): the unfixed units are the
path of the last key, with completed siblings hanging off; completed siblings are
represented by transition groups; the hash table holds every group under the
open-addressing invariant (`Probe.v`).  Refinement to a sorted association list;
minimality from injectivity of the representation.

Dictionary (C21-C28, C50, C60-C64; Dict*.v): ghost state from used offsets to
groups and from placed units to nodes; the free list is a duplicate-free circular
list; the depth-first build preserves "every placed node is represented".
`safe` queries (C60) are exactly kept clear of leaf units, whose low byte `dictLabel`
takes for a label.

Guides, completers, indexes (C36-C46, C65-C67), ranked ones (C45, C47-C49, C55,
C68, C69, C77-C79, C107): the dictionary represents a tree (`DictRep.v`); guides represent the
order of its children; completers are shown to enumerate the tree by an invariant on
the stack (Completer) or on the forest of nodes behind the heap (RankedCompleter).
The order of ranked completions (C107; RankedOrder.v): the candidates are the open keys,
and their node indices are in the order in which they were opened.

Serialisation (C31-C35, C70, C71; Serial*.v): byte lists, little endian, any
chunking.

Any contents of files (C111, C112, C115; Properties_Loaded.v, Properties_LoadedIndex.v,
LoopProofs.v): steps are functions on finitely many states, so the bounds of the model's
loops are reached exactly by steps without end.

Command line tool (C51-C53, C72-C76, C80; Cli*.v): composition of the above.
Whole runs (C83-C89; Main*.v): a run is a function of the arguments and the files to
output, files and status; it is shown to do what Cli.v does, and what it prints.
Failing writes (C97, C98; MainWrite.v): a simulation between the run and the same run
with writes that take everything, from which output and file can only grow.  The
percentage (C100; MainRatio.v): an exact quotient is further from a tie than the error of
a float64.  Standard error (C114; Properties_MainErr.v): faults of command lines are a
relation that the parser is shown to decide; which message is written is read off the run.

Indices with ranked guides, exactly (C122; IndexRankedExact.v, Properties_RankedExact.v): the walk of
BytesToIndex (indexer.go:31-66) to a held key adds the counts of the siblings up to the first one whose
byte is not below the byte looked for; no new model definitions.

A Dawg and a dictionary of different keys (C123; GuideOther.v, Properties_GuideOther.v): BuildGuide walks
both at once; a unit of the dictionary is visited by the first prefix that reaches it only. The same for
BuildRankedGuideCmp (C124; RankedOther.v, Properties_RankedOther.v), which asks for terminators too;
BothGuides.v and Properties_Both.v (C125) compare the two builders on any units;
GuideEnds.v and Properties_GuideEnds.v (C126) are on whether they end, GuideClosed.v and
Properties_GuideClosed.v (C127) on whether they panic. Properties_Plain.v (C128) collects what
holds without exceptions if no values are given.

Initial table sizes below 1 (C121; DawgSize.v, Properties_Size.v): an empty table is taken for a
builder that is not initialised, so every call initialises it again and the first state to
be fixed divides by the length of the table. Sizes of 2^32 and more are not covered.

Strings that are no keys (C118, C120; DictWrong.v, IndexWrong.v, Properties_Wrong.v,
Properties_Exact.v): the builder puts a wrong label on every unit that it leaves unused, so a
step off the keys can only hit the unit of a value; taken for a node, its leaf bit becomes bit
21 or 29 of the offset.

Reads (C116, C117; Scanner*.v, Properties_Scanner.v): the lines pending in buffer and reader
are kept by a turn of the scanner's loop, whatever the buffer.

Keys with zero bytes (C106; DawgNul.v, DawgNulAny.v, DawgNulRun.v): after such a key the
stack of open units holds chains below a leaf, which the invariant of DawgTrie.v excludes.
`pend` is that state; closing the chains gives the leaf the number of a transition as its
value (close2), and from then on the invariant holds again, for a history with that number in
place of the value. The counters of DawgAbs.v are lost, so `absw` keeps only the path and
the entries. `lst` (DawgNulAny.v) is the state after several keys with the same bytes up to the
zero byte: what hangs below the leaf may be any chain of units with links into the fixed part,
since nothing reads it before it is closed. What is returned and stored is said without the
builder in DawgNulSpec.v. `dawgw` (DawgAbs.v) is what the builders of dictionaries and guides
need of a Dawg, `view` and `gview` (DictThms.v, GuideThms.v) what lookups and completers need of
the units and the guide; they hold with and without zero bytes.

Lengths outside the key (C101, C102; DawgLength.v): the search with a greater length runs
beside the one with the length of the key; fixing units does not read the root's child.

Canonicity (C81; DawgCanon.v, CanonFile.v): an insertion that replaces the last key
undoes the units of the one before; the state of the builder other than its hash table
is a function of the entries left, and a Dawg of the state.

## Findings

Properties that are false of the code; each has a `..._refuted` theorem with a
concrete witness and, where one exists, a property with the exact statement.

| Property | What happens | Exact |
| --- | --- | --- |
| C01 | in 21-bit mode the decoder takes the byte after 0xBB as part of the same character, or panics at the end | C56 |
| C07 | a result of `UtfcEncode` is overwritten by the next call | C57 |
| C17 | a builder panics after `Finish` (`clear` leaves a hash table of one slot, so `init` is skipped) | C58 |
| C18 | keys with a zero byte and negative values are accepted, and give ill-formed Dawgs | C106, C19 |
| C54 | `Dawg.Clear` leaves two counters | C59 |
| C22, C23, C24, C26, C43 | `dictLabel` drops the leaf bit: a value whose low byte is the next byte of the query is followed as a node | C60-C62, C67 |
| C28 | an offset of 2^21 or more that is no multiple of 256 is not read back | C63 |
| C50 | unused units of the empty dictionary can be followed | C64 |
| C36-C38 | `Completer` from `Root` repeats the empty key for ever; `Key()` ends with a NUL | C65, C66 |
| C45 | `BuildIndex` with a `RankedGuide` stops at the first terminal label of a node, so keys are not counted; keys can share an index | C77-C79 |
| C46 | `BuildIndex` panics for the empty lexicon | |
| C48 | `RankedCompleter.Key()` ends with a NUL | C69 |
| C49 | `RankedCompleter` orders by value whatever the comparator | C69, C107 |
| C34 | `Index.Read` replaces the units before it fails | C71 |
| C51 | values outside int64 stop dawgtool | C72 |
| C52 | with -u lines are sorted by encoded length only; with -t bytes below the tab break the order | C74 |
| C53 | with -u queries are not encoded, so keys are not found; with -g an empty key and query never end; -i without -g panics | C75, C76 |
| C92 | a character outside the current block and alphabet costs two bytes, also in ASCII | C95 |
| C93 | `UtfcDecode` panics when the bytes end inside a character | C96 |
| C94 | the entries 0x0080 and 0x0530 of `auxOffset` are never looked up | |
| C99 | a follower that calls `UtfcEncode` changes the state of the `UtfcFollow` that called it | |
| C102 | `InsertKeyValue` with a negative length is accepted and overwrites the child of the root; keys inserted after it are lost | C102 |
| C105 | bytes that are no UTF-8 encode as U+FFFD, so different keys become equal with -u | C105 |
| C110 | a `UtfcState` that is not made with `NewUtfcState` encodes differently | C110 |
| C106 | a key with a zero byte is stored without the rest and its value; after the same key without it the call panics or that key is lost | C106 |
| C112 | of a file with a unit that is its own child, completers do not come back | C112 |
| C115 | nor do StringToIndex, IndexToString and BuildIndex, of a guide or index with such a chain | C115 |
| C117 | a lexicon that cannot be read to its end, or has a line of 65536 bytes, is taken for a shorter one; the run succeeds | C117 |
| C86 | a failed build leaves an empty or incomplete dictionary file | C85, C87 |

## Tests against wrong programs

`seeded/LOG.jsonl`: one line per edit of a model definition in a scratch copy, with
the claim it breaks, the observable differences computed with the edited model, the
first lemmas that failed and the property theorems that were lost.

How to read an entry: `proof_breaks_at` names the proofs that coqc rejects.
`theorems_failed` names the theorems of the claims the entry is about whose file no
longer builds, mostly because a lemma below them is rejected; a theorem of the same
file about another function is then listed too.  So a name there says that the
theorem is no longer proved, not that its statement is false of the edited program.
That the statement is false is seen where `concrete_runs_that_change` is not empty (a
run of the edited model differs) or where the proof that breaks is in a `Properties_`
file and is a run.  For about 100 of the entries no run changed: there the log shows
only that the proofs depend on the edited line.  The same holds of the entries marked
as controls, which keep every claim; most of them break proofs nonetheless.

## Status

| Property | Title | Status | Theorems |
| --- | --- | --- | --- |
| C01 | UTF-C round trip | partial | `C01_round_trip_refuted`, `C01_round_trip_partial`, `C56_round_trip_exact` |
| C02 | UTF-C never emits a zero byte | proved | `C02_no_zero_byte` |
| C03 | UTF-C encoding is injective | proved | `C03_injective` |
| C04 | UTF-C length bounds | proved | `C04_length_bounds` |
| C05 | UTF-C early abort | proved | `C05_follow_early_abort` |
| C06 | UTF-C is a streaming (prefix-preserving) code | proved | `C06_streaming` |
| C07 | UtfcEncode results survive later calls | partial | `C07_results_survive_refuted`, `C57_overlay` |
| C08 | UtfcEncode is history independent | proved | `C08_history_independent` |
| C56 | UTF-C round trip: exact failure set | proved | `C56_round_trip_exact` |
| C57 | What an older UtfcEncode result reads after a later call | proved | `C57_overlay` |
| C29 | BitPool is an array of booleans | proved | `C29_bitpool_array` |
| C30 | LinkTable is a map | proved | `C30_linktable_map` |
| C09 | Insert accepts exactly ordered keys | proved | `C09_insert_order`, `C09_insert_prefix` |
| C10 | Rejected inserts have no effect | proved | `C10_rejected_unchanged` |
| C11 | The Dawg holds exactly the inserted entries | proved | `C11_dawg_exact` |
| C12 | Re-inserting the last key overwrites its value | proved | `C12_overwrite` |
| C13 | The Dawg is minimal | proved | `C13_minimal` |
| C14 | Transition counters | proved | `C14_counters` |
| C15 | Building never panics or hangs | proved | `C15_no_panic` |
| C16 | Result independent of hash table size | proved | `C16_size_independent` |
| C17 | Builder is reusable after Finish | partial | `C17_reusable_refuted`, `C58_after_finish` |
| C18 | Ill-formed entries are rejected | partial | `C18_illformed_refuted` |
| C19 | Stored values survive | proved | `C19_values` |
| C20 | Merging states are counted exactly | proved | `C20_merging` |
| C54 | Dawg.Clear resets the Dawg | partial | `C54_clear_refuted`, `C59_clear_exact` |
| C58 | A builder after Finish only panics | proved | `C58_after_finish` |
| C59 | Dawg.Clear: what it resets | proved | `C59_clear_exact` |
| C21 | Every inserted key is found with its value | proved | `C21_keys_found` |
| C22 | No false positives | partial | `C22_no_false_positives_refuted`, `C60_lookup_exact`, `C60_safe_bytes`, `C118_panics` |
| C23 | Queries never panic | partial | `C23_no_panic_refuted`, `C60_lookup_exact`, `C118_panics` |
| C24 | Follow is prefix search | partial | `C24_prefix_search_refuted`, `C24_prefixes_followed_partial`, `C24_follow_append`, `C61_prefix_search_exact` |
| C25 | Follow stops at the first mismatch | proved | `C25_follow_count`, `C25_follow_count_len` |
| C26 | The lookup variants agree | partial | `C26_variants_refuted`, `C62_variants`, `C62_variants_len` |
| C27 | Build succeeds within the format limits | proved | `C27_build_succeeds` |
| C28 | Dictionary unit packing | partial | `C28_packing_refuted`, `C63_packing` |
| C50 | Empty dictionary answers queries | partial | `C50_empty_follow_refuted`, `C50_empty_lookup_partial`, `C64_empty_follow_exact` |
| C60 | Lookups are exact for safe queries | proved | `C60_lookup_exact`, `C60_safe_bytes` |
| C61 | Prefix search is exact for safe queries | proved | `C61_prefix_search_exact` |
| C62 | The lookup variants agree up to panics | proved | `C62_variants`, `C62_variants_len` |
| C63 | Dictionary unit packing: exact limits | proved | `C63_packing` |
| C64 | What can be followed in the empty dictionary | proved | `C64_empty_follow_exact` |
| C36 | Completer enumerates exactly the keys with the prefix, in order | partial | `C36_enumeration_refuted`, `C36_enumeration_partial`, `C36_keys_increase`, `C36_outputs_unique`, `C65_enumeration` |
| C37 | Completer.Key() is the key | partial | `C37_key_refuted`, `C65_enumeration` |
| C38 | Enumeration terminates also with the empty key | partial | `C38_termination_refuted`, `C66_empty_key_repeats` |
| C39 | Exhausted completers stay exhausted; Start resets | proved | `C39_exhausted`, `C39_start_resets`, `C39_start_len` |
| C40 | Guide build succeeds | proved | `C40_guide_built` |
| C65 | Completer enumeration, exactly | proved | `C65_enumeration`, `C65_reached`, `C36_keys_increase`, `C36_outputs_unique` |
| C66 | Root completion repeats an empty key | proved | `C66_empty_key_repeats` |
| C41 | Index counts keys | proved | `C41_index_counts` |
| C42 | StringToIndex is the rank | proved | `C42_rank` |
| C43 | StringToIndex reports absent keys | partial | `C43_absent_refuted`, `C43_absent_partial`, `C67_absent_safe`, `C120_every` |
| C44 | IndexToString is the inverse | proved | `C44_key_at`, `C44_inverse`, `C44_beyond` |
| C46 | Indexing the empty dictionary | partial | `C46_empty_index_refuted`, `C46_empty_index_panics` |
| C67 | StringToIndex on absent safe strings | proved | `C67_absent_safe` |
| C47 | RankedCompleter enumerates by decreasing value | proved | `C47_ranked_order`, `C47_outputs_unique`, `C69_ranked_total` |
| C48 | RankedCompleter.Key() is the key | partial | `C48_ranked_key_refuted`, `C69_ranked_enumeration` |
| C49 | Custom comparators rank completions | partial | `C49_comparator_refuted`, `C49_comparator_partial`, `C69_ranked_enumeration`, `C107_order` |
| C55 | Heap order of candidates | proved | `C55_heap` |
| C68 | Ranked guides are always built | proved | `C68_ranked_built` |
| C69 | RankedCompleter enumeration, exactly | proved | `C69_ranked_enumeration`, `C69_ranked_total` |
| C31 | Dictionary Write/Read round trip | proved | `C31_dictionary`, `C31_built` |
| C32 | Guide, RankedGuide and Index Write/Read round trip | proved | `C32_guide`, `C32_ranked_guide`, `C32_index`, `C32_built`, `C32_file` |
| C33 | Truncated input is refused | proved | `C33_dictionary`, `C33_guide`, `C33_index` |
| C34 | A failed Read leaves the receiver unchanged | partial | `C34_index_refuted`, `C34_receiver_kept`, `C71_index_failed` |
| C35 | Write reports short writes | proved | `C35_write` |
| C70 | Read accepts only what Write produces | proved | `C70_dictionary`, `C70_guide`, `C70_index` |
| C71 | What a failed Index.Read leaves | proved | `C71_index_failed` |
| C51 | Command line values are clamped | partial | `C51_clamped_refuted`, `C51_clamped_partial` |
| C52 | dawgtool -s accepts any lexicon | partial | `C52_utfc_refuted`, `C52_tab_refuted`, `C52_sorted_partial` |
| C53 | End-to-end file round trip | partial | `C53_utfc_refuted`, `C53_empty_refuted`, `C75_written`, `C75_not_written`, `C76_plain`, `C76_guide`, `C76_ranked`, `C76_values`, `C76_no_values`, `C88_answers` |
| C72 | What each line stands for, exactly | proved | `C72_line_exact` |
| C73 | Which lines are read | proved | `C73_lines` |
| C74 | dawgtool -s -u sorts by encoded length | proved | `C74_utfc_sort`, `C74_utfc_keys` |
| C75 | When dawgtool writes a file | proved | `C75_written`, `C75_not_written` |
| C76 | What dawgtool answers from its files, exactly | proved | `C76_plain`, `C76_guide`, `C76_ranked`, `C76_values`, `C76_no_values` |
| C77 | What an index with a ranked guide holds, exactly | proved | `C77_ranked_index`, `C77_ranked_complete`, `C77_ranked_empty` |
| C78 | StringToIndex with a ranked guide | proved | `C78_ranked_rank` |
| C79 | StringToIndex with a ranked guide, absent strings | proved | `C79_ranked_absent` |
| C80 | What dawgtool -r -i answers from its files | proved | `C80_ranked_index` |
| C45 | Indexing works with a ranked guide | partial | `C45_ranked_index_refuted`, `C45_same_index_refuted` |
| C81 | What is built depends on the accepted entries only | proved | `C81_dawg`, `C81_ranked_guide`, `C81_file`, `C81_any_order_refuted` |
| C82 | Short forms of the calls | proved | `C82_insert_string`, `C82_build`, `C82_build_made`, `C82_clear` |
| C83 | How dawgtool reads its command line | proved | `C83_reading`, `C83_refused`, `C83_help`, `C83_no_file` |
| C84 | What a run of dawgtool can change | proved | `C84_changes` |
| C85 | What dawgtool -b prints and writes | proved | `C85_numbers`, `C85_build`, `C85_built` |
| C86 | A failed build leaves the dictionary file as it was | partial | `C86_kept_refuted`, `C86_kept_partial` |
| C87 | What a failed build leaves, exactly | proved | `C87_stopped`, `C87_cases`, `C87_same_path` |
| C88 | What dawgtool prints when loading | proved | `C88_answers`, `C88_index_alone`, `C88_no_end` |
| C89 | Building and then loading, as two runs | proved | `C89_round_trip` |
| C90 | The UTF-C format, exactly | proved | `C90_format` |
| C91 | Texts in one alphabet are short in UTF-C | proved | `C91_ascii`, `C91_russian`, `C91_accents`, `C91_alphabet`, `C91_chinese` |
| C92 | UTF-C is never longer than UTF-8 | partial | `C92_never_longer_refuted`, `C95_bound` |
| C93 | UtfcDecode accepts any bytes | partial | `C93_any_bytes_refuted`, `C96_any_bytes` |
| C94 | Listed alphabets are kept | partial | `C94_alphabet_kept_refuted`, `C94_alphabet_kept_partial`, `C94_accents` |
| C95 | UTF-C and UTF-8, exactly | proved | `C95_bound`, `C95_attained` |
| C96 | UtfcDecode on any bytes, exactly | proved | `C96_any_bytes` |
| C97 | Failing writes while building | proved | `C97_writes`, `C97_success`, `C97_built` |
| C98 | An incomplete file is refused | proved | `C98_refused` |
| C99 | Followers may use the package | partial | `C99_reentrant_refuted`, `C99_undisturbed`, `C99_one_alphabet` |
| C100 | The percentage of unused elements | proved | `C100_ratio` |
| C101 | A length greater than the key never inserts | proved | `C101_long` |
| C102 | A negative length is harmless | partial | `C102_negative_refuted`, `C102_negative`, `C102_finish` |
| C103 | The test data of the repository | proved | `C103_file`, `C103_answers`, `C103_utfc`, `C103_dawg` |
| C104 | Strings that are not UTF-8 | proved | `C104_ranged`, `C104_text` |
| C105 | UtfcEncode is injective on strings | partial | `C105_strings_injective_refuted`, `C105_strings_partial`, `C105_strings_exact`, `C105_valid_twin` |
| C106 | Keys with a zero byte | partial | `C106_nul_refuted`, `C106_damage_refuted`, `C106_nul_partial`, `C106_panic`, `C106_lower`, `C106_agrees`, `C106_dictionary` |
| C107 | The order of ranked completions | proved | `C107_order` |
| C108 | Search by text over UTF-C keys | proved | `C108_prefix`, `C108_keys`, `C108_entries`, `C108_follower`, `C108_completer`, `C108_ranked`, `C108_absent` |
| C109 | UtfcState objects are independent and can be resumed | proved | `C109_states`, `C109_only` |
| C110 | The zero UtfcState is ready to use | partial | `C110_zero_refuted`, `C110_zero_exact` |
| C111 | Lookups in any file end | proved | `C111_follow`, `C111_find`, `C111_ends` |
| C112 | Completing over any file ends | partial | `C112_ends_refuted`, `C112_keys_refuted`, `C112_search`, `C112_next`, `C112_first`, `C112_ranked`, `C112_ranked_next`, `C112_ranked_first` |
| C113 | Calls from several goroutines | partial | `C113_follow_refuted`, `C113_encode_refuted`, `C113_plain_partial`, `C113_own`, `C113_alone` |
| C114 | What dawgtool writes to standard error | proved | `C114_lines`, `C114_one_fault`, `C114_refused`, `C114_no_file`, `C114_write`, `C114_cut`, `C114_ends`, `C114_quote`, `C114_quote_one`, `C114_quote_visible`, `C114_quote_plain`, `C87_stopped` |
| C115 | An Index over any file | partial | `C115_ends_refuted`, `C115_enters_refuted`, `C115_rank_ends`, `C115_rank_panics`, `C115_rank_value`, `C115_rank_key`, `C115_key_ends`, `C115_key_panics`, `C115_key_value`, `C115_key`, `C115_build_ends` |
| C116 | Lines of files read piece by piece | proved | `C116_lines`, `C116_unique`, `C116_cuts` |
| C117 | Failing reads of the lexicon | partial | `C117_reported_refuted`, `C117_same`, `C117_nothing`, `C85_build`, `C87_stopped`, `C88_answers` |
| C118 | A lookup is right, or panics | proved | `C118_step`, `C118_decides`, `C118_beyond`, `C118_lookup`, `C118_right_or_panics`, `C118_panics` |
| C119 | The guide, exactly | proved | `C119_guide`, `C119_one` |
| C120 | StringToIndex of absent strings, exactly | proved | `C120_absent`, `C120_every` |
| C121 | Any initial hash table size works | partial | `C121_size_refuted`, `C121_negative`, `C121_zero`, `C121_dawg`, `C121_dictionary`, `C121_none`, `C16_size_independent` |
| C122 | StringToIndex with a ranked guide counts the keys that are passed | proved | `C122_ranked_exact`, `C122_ranked_first` |
| C123 | BuildGuide rejects a dictionary of other keys | partial | `C123_detects_refuted`, `C123_no_panic_refuted`, `C123_accepts`, `C123_rejects`, `C123_detects` |
| C124 | BuildRankedGuide rejects a dictionary of other keys | partial | `C124_detects_refuted`, `C124_no_panic_refuted`, `C124_accepts`, `C124_rejects`, `C124_detects` |
| C125 | What BuildRankedGuide accepts, BuildGuide accepts | proved | `C125_guide`, `C125_converse_refuted` |
| C126 | The guide builders end on any dictionary | partial | `C126_ranked_ends_refuted`, `C126_round`, `C126_guide_ends` |
| C127 | The guide builders do not panic on units that lead nowhere outside | proved | `C127_guide`, `C127_ranked`, `C127_ranked_result` |
| C128 | Keys without values are looked up exactly | proved | `C128_lookup`, `C128_index`, `C128_guides` |

"partial" is used for properties that are false as stated: the theorems are the
refutation and what holds instead.
