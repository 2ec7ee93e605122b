{
 "claims": [
  {
   "property": "C01",
   "status": "partial",
   "theorems": [
    "C01_round_trip_refuted",
    "C01_round_trip_partial",
    "C56_round_trip_exact"
   ],
   "note": "The claim is false of the code: [U+4E00,U+2600] encodes to bytes on which UtfcDecode panics. Proved for texts without code points 0x2600+k*0x8000; exact failure set in C56."
  },
  {
   "property": "C02",
   "status": "proved",
   "theorems": [
    "C02_no_zero_byte"
   ],
   "note": ""
  },
  {
   "property": "C03",
   "status": "proved",
   "theorems": [
    "C03_injective"
   ],
   "note": ""
  },
  {
   "property": "C04",
   "status": "proved",
   "theorems": [
    "C04_length_bounds"
   ],
   "note": ""
  },
  {
   "property": "C05",
   "status": "proved",
   "theorems": [
    "C05_follow_early_abort"
   ],
   "note": ""
  },
  {
   "property": "C06",
   "status": "proved",
   "theorems": [
    "C06_streaming"
   ],
   "note": ""
  },
  {
   "property": "C07",
   "status": "partial",
   "theorems": [
    "C07_results_survive_refuted",
    "C57_overlay"
   ],
   "note": "The claim is false of the code: the result slice aliases the package-level buffer. C57 states exactly what is read after a later call."
  },
  {
   "property": "C08",
   "status": "proved",
   "theorems": [
    "C08_history_independent"
   ],
   "note": ""
  },
  {
   "property": "C56",
   "status": "proved",
   "theorems": [
    "C56_round_trip_exact"
   ],
   "note": ""
  },
  {
   "property": "C57",
   "status": "proved",
   "theorems": [
    "C57_overlay"
   ],
   "note": ""
  },
  {
   "property": "C29",
   "status": "proved",
   "theorems": [
    "C29_bitpool_array"
   ],
   "note": ""
  },
  {
   "property": "C30",
   "status": "proved",
   "theorems": [
    "C30_linktable_map"
   ],
   "note": ""
  },
  {
   "property": "C09",
   "status": "proved",
   "theorems": [
    "C09_insert_order",
    "C09_insert_prefix"
   ],
   "note": "Hypotheses hist_ok (zero-free byte keys, total length below 2^30) and size_ok (1 <= size < 2^32)."
  },
  {
   "property": "C10",
   "status": "proved",
   "theorems": [
    "C10_rejected_unchanged"
   ],
   "note": "Hypotheses hist_ok (zero-free byte keys, total length below 2^30) and size_ok (1 <= size < 2^32)."
  },
  {
   "property": "C11",
   "status": "proved",
   "theorems": [
    "C11_dawg_exact"
   ],
   "note": "Hypotheses hist_ok (zero-free byte keys, total length below 2^30) and size_ok (1 <= size < 2^32)."
  },
  {
   "property": "C12",
   "status": "proved",
   "theorems": [
    "C12_overwrite"
   ],
   "note": "Hypotheses hist_ok (zero-free byte keys, total length below 2^30) and size_ok (1 <= size < 2^32)."
  },
  {
   "property": "C13",
   "status": "proved",
   "theorems": [
    "C13_minimal"
   ],
   "note": "Hypotheses hist_ok (zero-free byte keys, total length below 2^30) and size_ok (1 <= size < 2^32)."
  },
  {
   "property": "C14",
   "status": "proved",
   "theorems": [
    "C14_counters"
   ],
   "note": "Hypotheses hist_ok (zero-free byte keys, total length below 2^30) and size_ok (1 <= size < 2^32)."
  },
  {
   "property": "C15",
   "status": "proved",
   "theorems": [
    "C15_no_panic"
   ],
   "note": "Hypotheses hist_ok (zero-free byte keys, total length below 2^30) and size_ok (1 <= size < 2^32)."
  },
  {
   "property": "C16",
   "status": "proved",
   "theorems": [
    "C16_size_independent"
   ],
   "note": "Hypotheses hist_ok (zero-free byte keys, total length below 2^30) and size_ok (1 <= size < 2^32)."
  },
  {
   "property": "C17",
   "status": "partial",
   "theorems": [
    "C17_reusable_refuted",
    "C58_after_finish"
   ],
   "note": "The claim is false of the code: clear leaves hashTable with one slot, so init is never run again. C58 states what happens instead."
  },
  {
   "property": "C18",
   "status": "partial",
   "theorems": [
    "C18_illformed_refuted"
   ],
   "note": "The claim is false of the code: neither zero bytes nor negative values are checked. What keys with zero bytes do is C106; a negative value is kept modulo 2^31 (C19)."
  },
  {
   "property": "C19",
   "status": "proved",
   "theorems": [
    "C19_values"
   ],
   "note": "Hypotheses hist_ok (zero-free byte keys, total length below 2^30) and size_ok (1 <= size < 2^32)."
  },
  {
   "property": "C20",
   "status": "proved",
   "theorems": [
    "C20_merging"
   ],
   "note": "Hypotheses hist_ok (zero-free byte keys, total length below 2^30) and size_ok (1 <= size < 2^32)."
  },
  {
   "property": "C54",
   "status": "partial",
   "theorems": [
    "C54_clear_refuted",
    "C59_clear_exact"
   ],
   "note": "The claim is false of the code: Clear leaves two counters. C59 is the exact condition."
  },
  {
   "property": "C58",
   "status": "proved",
   "theorems": [
    "C58_after_finish"
   ],
   "note": ""
  },
  {
   "property": "C59",
   "status": "proved",
   "theorems": [
    "C59_clear_exact"
   ],
   "note": ""
  },
  {
   "property": "C21",
   "status": "proved",
   "theorems": [
    "C21_keys_found"
   ],
   "note": "Hypotheses hist_ok (zero-free byte keys, total length below 2^30) and size_ok (1 <= size < 2^32)."
  },
  {
   "property": "C22",
   "status": "partial",
   "theorems": [
    "C22_no_false_positives_refuted",
    "C60_lookup_exact",
    "C60_safe_bytes",
    "C118_panics"
   ],
   "note": "The claim is false of the code: Follow compares only the low 8 bits of the unit, so a value unit can be taken for a node. C60 is the claim for the queries that cannot meet such a unit."
  },
  {
   "property": "C23",
   "status": "partial",
   "theorems": [
    "C23_no_panic_refuted",
    "C60_lookup_exact",
    "C118_panics"
   ],
   "note": "The claim is false of the code, same cause as C22."
  },
  {
   "property": "C24",
   "status": "partial",
   "theorems": [
    "C24_prefix_search_refuted",
    "C24_prefixes_followed_partial",
    "C24_follow_append",
    "C61_prefix_search_exact"
   ],
   "note": "'Only if' is false of the code, same cause as C22; 'if', HasValue/Value and composition hold always; C61 is the equivalence for safe queries."
  },
  {
   "property": "C25",
   "status": "proved",
   "theorems": [
    "C25_follow_count",
    "C25_follow_count_len"
   ],
   "note": "For every unit array."
  },
  {
   "property": "C26",
   "status": "partial",
   "theorems": [
    "C26_variants_refuted",
    "C62_variants",
    "C62_variants_len"
   ],
   "note": "False as stated: ContainsString can be true where FindString panics. C62 is the claim with panics accounted for."
  },
  {
   "property": "C27",
   "status": "proved",
   "theorems": [
    "C27_build_succeeds"
   ],
   "note": "Hypotheses hist_ok (zero-free byte keys, total length below 2^30) and size_ok (1 <= size < 2^32). The limit is stated as fewer than 2^21 distinct key prefixes; beyond it Build returns a dictionary or nil, never panics."
  },
  {
   "property": "C28",
   "status": "partial",
   "theorems": [
    "C28_packing_refuted",
    "C63_packing"
   ],
   "note": "False as stated: offsets in [2^21, 2^29) that are not multiples of 256 are accepted and corrupt the unit. C63 is the exact condition; the builder only passes such offsets that satisfy it."
  },
  {
   "property": "C50",
   "status": "partial",
   "theorems": [
    "C50_empty_follow_refuted",
    "C50_empty_lookup_partial",
    "C64_empty_follow_exact"
   ],
   "note": "Lookups answer as claimed; following does not. C64 is exact."
  },
  {
   "property": "C60",
   "status": "proved",
   "theorems": [
    "C60_lookup_exact",
    "C60_safe_bytes"
   ],
   "note": "Hypotheses hist_ok (zero-free byte keys, total length below 2^30) and size_ok (1 <= size < 2^32)."
  },
  {
   "property": "C61",
   "status": "proved",
   "theorems": [
    "C61_prefix_search_exact"
   ],
   "note": "Hypotheses hist_ok (zero-free byte keys, total length below 2^30) and size_ok (1 <= size < 2^32)."
  },
  {
   "property": "C62",
   "status": "proved",
   "theorems": [
    "C62_variants",
    "C62_variants_len"
   ],
   "note": ""
  },
  {
   "property": "C63",
   "status": "proved",
   "theorems": [
    "C63_packing"
   ],
   "note": ""
  },
  {
   "property": "C64",
   "status": "proved",
   "theorems": [
    "C64_empty_follow_exact"
   ],
   "note": "Hypotheses hist_ok (zero-free byte keys, total length below 2^30) and size_ok (1 <= size < 2^32)."
  },
  {
   "property": "C36",
   "status": "partial",
   "theorems": [
    "C36_enumeration_refuted",
    "C36_enumeration_partial",
    "C36_keys_increase",
    "C36_outputs_unique",
    "C65_enumeration"
   ],
   "note": "False as stated: from Root with the empty key present, the enumeration does not end (lastIndex == Root means 'not started'). Proved in every other case."
  },
  {
   "property": "C37",
   "status": "partial",
   "theorems": [
    "C37_key_refuted",
    "C65_enumeration"
   ],
   "note": "Key() is false of the code (trailing NUL), Length() is right; C65 is exact."
  },
  {
   "property": "C38",
   "status": "partial",
   "theorems": [
    "C38_termination_refuted",
    "C66_empty_key_repeats"
   ],
   "note": "The claim is false of the code; C66 says what happens instead."
  },
  {
   "property": "C39",
   "status": "proved",
   "theorems": [
    "C39_exhausted",
    "C39_start_resets",
    "C39_start_len"
   ],
   "note": "Hypotheses hist_ok (zero-free byte keys, total length below 2^30) and size_ok (1 <= size < 2^32). 'Keeps returning false' is for a guide and dictionary of the same Dawg."
  },
  {
   "property": "C40",
   "status": "proved",
   "theorems": [
    "C40_guide_built"
   ],
   "note": "Hypotheses hist_ok (zero-free byte keys, total length below 2^30) and size_ok (1 <= size < 2^32)."
  },
  {
   "property": "C65",
   "status": "proved",
   "theorems": [
    "C65_enumeration",
    "C65_reached",
    "C36_keys_increase",
    "C36_outputs_unique"
   ],
   "note": "Hypotheses hist_ok (zero-free byte keys, total length below 2^30) and size_ok (1 <= size < 2^32)."
  },
  {
   "property": "C66",
   "status": "proved",
   "theorems": [
    "C66_empty_key_repeats"
   ],
   "note": "Hypotheses hist_ok (zero-free byte keys, total length below 2^30) and size_ok (1 <= size < 2^32)."
  },
  {
   "property": "C41",
   "status": "proved",
   "theorems": [
    "C41_index_counts"
   ],
   "note": "Hypotheses hist_ok (zero-free byte keys, total length below 2^30) and size_ok (1 <= size < 2^32)."
  },
  {
   "property": "C42",
   "status": "proved",
   "theorems": [
    "C42_rank"
   ],
   "note": "Hypotheses hist_ok (zero-free byte keys, total length below 2^30) and size_ok (1 <= size < 2^32)."
  },
  {
   "property": "C43",
   "status": "partial",
   "theorems": [
    "C43_absent_refuted",
    "C43_absent_partial",
    "C67_absent_safe",
    "C120_every"
   ],
   "note": "False of the code, same cause as C22; C67 is the claim for safe queries."
  },
  {
   "property": "C44",
   "status": "proved",
   "theorems": [
    "C44_key_at",
    "C44_inverse",
    "C44_beyond"
   ],
   "note": "Hypotheses hist_ok (zero-free byte keys, total length below 2^30) and size_ok (1 <= size < 2^32). 'Returns no key' is nil from IndexToBytes and the empty string from IndexToString, which is also what IndexToString(0) gives when the empty key was accepted."
  },
  {
   "property": "C46",
   "status": "partial",
   "theorems": [
    "C46_empty_index_refuted",
    "C46_empty_index_panics"
   ],
   "note": "The claim is false of the code: BuildIndex panics exactly for the empty lexicon."
  },
  {
   "property": "C67",
   "status": "proved",
   "theorems": [
    "C67_absent_safe"
   ],
   "note": "Hypotheses hist_ok (zero-free byte keys, total length below 2^30) and size_ok (1 <= size < 2^32)."
  },
  {
   "property": "C47",
   "status": "proved",
   "theorems": [
    "C47_ranked_order",
    "C47_outputs_unique",
    "C69_ranked_total"
   ],
   "note": "Hypotheses hist_ok (zero-free byte keys, total length below 2^30) and size_ok (1 <= size < 2^32). Key() carries a NUL at its end, see C48. sort.SliceStable is any function meeting the contract [sorter]."
  },
  {
   "property": "C48",
   "status": "partial",
   "theorems": [
    "C48_ranked_key_refuted",
    "C69_ranked_enumeration"
   ],
   "note": "The claim is false of the code: Key() has a NUL at its end; C69 is the exact version."
  },
  {
   "property": "C49",
   "status": "partial",
   "theorems": [
    "C49_comparator_refuted",
    "C49_comparator_partial",
    "C69_ranked_enumeration",
    "C107_order"
   ],
   "note": "The claim is false of the code: the candidate queue compares values and ignores the comparator. For a total order the first completion is a best one; C69 gives the set of completions, and C107 their order."
  },
  {
   "property": "C55",
   "status": "proved",
   "theorems": [
    "C55_heap"
   ],
   "note": "container/heap is modelled from the standard library's source."
  },
  {
   "property": "C68",
   "status": "proved",
   "theorems": [
    "C68_ranked_built"
   ],
   "note": "Hypotheses hist_ok (zero-free byte keys, total length below 2^30) and size_ok (1 <= size < 2^32)."
  },
  {
   "property": "C69",
   "status": "proved",
   "theorems": [
    "C69_ranked_enumeration",
    "C69_ranked_total"
   ],
   "note": "Hypotheses hist_ok (zero-free byte keys, total length below 2^30) and size_ok (1 <= size < 2^32)."
  },
  {
   "property": "C31",
   "status": "proved",
   "theorems": [
    "C31_dictionary",
    "C31_built"
   ],
   "note": "io.Reader, io.Writer, io.ReadFull and encoding/binary are modelled from the standard library; running out of memory in make is not."
  },
  {
   "property": "C32",
   "status": "proved",
   "theorems": [
    "C32_guide",
    "C32_ranked_guide",
    "C32_index",
    "C32_built",
    "C32_file"
   ],
   "note": "io.Reader, io.Writer, io.ReadFull and encoding/binary are modelled from the standard library; running out of memory in make is not."
  },
  {
   "property": "C33",
   "status": "proved",
   "theorems": [
    "C33_dictionary",
    "C33_guide",
    "C33_index"
   ],
   "note": "io.Reader, io.Writer, io.ReadFull and encoding/binary are modelled from the standard library; running out of memory in make is not."
  },
  {
   "property": "C34",
   "status": "partial",
   "theorems": [
    "C34_index_refuted",
    "C34_receiver_kept",
    "C71_index_failed"
   ],
   "note": "False of Index.Read, which replaces its units before the second read; proved for Dictionary, Guide and RankedGuide. C71 says what Index.Read leaves."
  },
  {
   "property": "C35",
   "status": "proved",
   "theorems": [
    "C35_write"
   ],
   "note": "io.Reader, io.Writer, io.ReadFull and encoding/binary are modelled from the standard library; running out of memory in make is not. 'False only when less was taken' is for writers that give an error only for short writes."
  },
  {
   "property": "C70",
   "status": "proved",
   "theorems": [
    "C70_dictionary",
    "C70_guide",
    "C70_index"
   ],
   "note": "io.Reader, io.Writer, io.ReadFull and encoding/binary are modelled from the standard library; running out of memory in make is not."
  },
  {
   "property": "C71",
   "status": "proved",
   "theorems": [
    "C71_index_failed"
   ],
   "note": "io.Reader, io.Writer, io.ReadFull and encoding/binary are modelled from the standard library; running out of memory in make is not."
  },
  {
   "property": "C51",
   "status": "partial",
   "theorems": [
    "C51_clamped_refuted",
    "C51_clamped_partial"
   ],
   "note": "False outside int64, where dawgtool exits; proved for all values in int64. C72 is the exact statement."
  },
  {
   "property": "C52",
   "status": "partial",
   "theorems": [
    "C52_utfc_refuted",
    "C52_tab_refuted",
    "C52_sorted_partial"
   ],
   "note": "False with -u (sorted by encoded length only) and with -t for keys with bytes below the tab; proved otherwise. C74 is the exact statement for -u."
  },
  {
   "property": "C53",
   "status": "partial",
   "theorems": [
    "C53_utfc_refuted",
    "C53_empty_refuted",
    "C75_written",
    "C75_not_written",
    "C76_plain",
    "C76_guide",
    "C76_ranked",
    "C76_values",
    "C76_no_values",
    "C88_answers"
   ],
   "note": "False with -u (queries are not encoded) and for the empty key with -g. C75, C76 and, for -r -i, C88_answers say exactly what happens."
  },
  {
   "property": "C72",
   "status": "proved",
   "theorems": [
    "C72_line_exact"
   ],
   "note": "bufio.Scanner, strings.Split, strconv.Atoi, sort.SliceStable (any function with its contract) and UTF-8 decoding are modelled from the standard library."
  },
  {
   "property": "C73",
   "status": "proved",
   "theorems": [
    "C73_lines"
   ],
   "note": "bufio.Scanner, strings.Split, strconv.Atoi, sort.SliceStable (any function with its contract) and UTF-8 decoding are modelled from the standard library."
  },
  {
   "property": "C74",
   "status": "proved",
   "theorems": [
    "C74_utfc_sort",
    "C74_utfc_keys"
   ],
   "note": "bufio.Scanner, strings.Split, strconv.Atoi, sort.SliceStable (any function with its contract) and UTF-8 decoding are modelled from the standard library."
  },
  {
   "property": "C75",
   "status": "proved",
   "theorems": [
    "C75_written",
    "C75_not_written"
   ],
   "note": "bufio.Scanner, strings.Split, strconv.Atoi, sort.SliceStable (any function with its contract) and UTF-8 decoding are modelled from the standard library."
  },
  {
   "property": "C76",
   "status": "proved",
   "theorems": [
    "C76_plain",
    "C76_guide",
    "C76_ranked",
    "C76_values",
    "C76_no_values"
   ],
   "note": "bufio.Scanner, strings.Split, strconv.Atoi, sort.SliceStable (any function with its contract) and UTF-8 decoding are modelled from the standard library."
  },
  {
   "property": "C77",
   "status": "proved",
   "theorems": [
    "C77_ranked_index",
    "C77_ranked_complete",
    "C77_ranked_empty"
   ],
   "note": ""
  },
  {
   "property": "C78",
   "status": "proved",
   "theorems": [
    "C78_ranked_rank"
   ],
   "note": ""
  },
  {
   "property": "C79",
   "status": "proved",
   "theorems": [
    "C79_ranked_absent"
   ],
   "note": ""
  },
  {
   "property": "C80",
   "status": "proved",
   "theorems": [
    "C80_ranked_index"
   ],
   "note": "bufio.Scanner, strings.Split, strconv.Atoi, sort.SliceStable (any function with its contract) and UTF-8 decoding are modelled from the standard library."
  },
  {
   "property": "C45",
   "status": "partial",
   "theorems": [
    "C45_ranked_index_refuted",
    "C45_same_index_refuted"
   ],
   "note": "The claim is false of the code: BuildIndex and the Indexer stop at a terminator, which a ranked guide may place before other children, and the Indexer sums the counts of bytewise smaller siblings only, so keys can share an index. C77, C78, C79 and C122 say exactly what holds."
  },
  {
   "property": "C81",
   "status": "proved",
   "theorems": [
    "C81_dawg",
    "C81_ranked_guide",
    "C81_file",
    "C81_any_order_refuted"
   ],
   "note": "The refuted theorem shows that the total order is needed for the ranked guide. bufio.Scanner, strings.Split, strconv.Atoi, sort.SliceStable (any function with its contract) and UTF-8 decoding are modelled from the standard library."
  },
  {
   "property": "C82",
   "status": "proved",
   "theorems": [
    "C82_insert_string",
    "C82_build",
    "C82_build_made",
    "C82_clear"
   ],
   "note": ""
  },
  {
   "property": "C83",
   "status": "proved",
   "theorems": [
    "C83_reading",
    "C83_refused",
    "C83_help",
    "C83_no_file"
   ],
   "note": "flag, fmt, log and os are modelled as far as main.go uses them (Main.v): a path is a name of its own file, standard error is left out, and writes to standard output succeed."
  },
  {
   "property": "C84",
   "status": "proved",
   "theorems": [
    "C84_changes"
   ],
   "note": "flag, fmt, log and os are modelled as far as main.go uses them (Main.v): a path is a name of its own file, standard error is left out, and writes to standard output succeed."
  },
  {
   "property": "C85",
   "status": "proved",
   "theorems": [
    "C85_numbers",
    "C85_build",
    "C85_built"
   ],
   "note": "flag, fmt, log and os are modelled as far as main.go uses them (Main.v): a path is a name of its own file, standard error is left out, and writes to standard output succeed."
  },
  {
   "property": "C86",
   "status": "partial",
   "theorems": [
    "C86_kept_refuted",
    "C86_kept_partial"
   ],
   "note": "False: the file is emptied before the lexicon is read. It holds for failures before that. C87 says exactly what is left."
  },
  {
   "property": "C87",
   "status": "proved",
   "theorems": [
    "C87_stopped",
    "C87_cases",
    "C87_same_path"
   ],
   "note": "flag, fmt, log and os are modelled as far as main.go uses them (Main.v): a path is a name of its own file, standard error is left out, and writes to standard output succeed."
  },
  {
   "property": "C88",
   "status": "proved",
   "theorems": [
    "C88_answers",
    "C88_index_alone",
    "C88_no_end"
   ],
   "note": "flag, fmt, log and os are modelled as far as main.go uses them (Main.v): a path is a name of its own file, standard error is left out, and writes to standard output succeed."
  },
  {
   "property": "C89",
   "status": "proved",
   "theorems": [
    "C89_round_trip"
   ],
   "note": "flag, fmt, log and os are modelled as far as main.go uses them (Main.v): a path is a name of its own file, standard error is left out, and writes to standard output succeed."
  },
  {
   "property": "C90",
   "status": "proved",
   "theorems": [
    "C90_format"
   ],
   "note": "The spec (UtfcFormatSpec.v) is arithmetic on code points and shares nothing with the model."
  },
  {
   "property": "C91",
   "status": "proved",
   "theorems": [
    "C91_ascii",
    "C91_russian",
    "C91_accents",
    "C91_alphabet",
    "C91_chinese"
   ],
   "note": ""
  },
  {
   "property": "C92",
   "status": "partial",
   "theorems": [
    "C92_never_longer_refuted",
    "C95_bound"
   ],
   "note": "False; four thirds is the exact bound (C95)."
  },
  {
   "property": "C93",
   "status": "partial",
   "theorems": [
    "C93_any_bytes_refuted",
    "C96_any_bytes"
   ],
   "note": "False for arrays that end inside a character. C96 is the exact statement."
  },
  {
   "property": "C94",
   "status": "partial",
   "theorems": [
    "C94_alphabet_kept_refuted",
    "C94_alphabet_kept_partial",
    "C94_accents"
   ],
   "note": "False for two of the 21 entries, which are never looked up; proved for the others."
  },
  {
   "property": "C95",
   "status": "proved",
   "theorems": [
    "C95_bound",
    "C95_attained"
   ],
   "note": ""
  },
  {
   "property": "C96",
   "status": "proved",
   "theorems": [
    "C96_any_bytes"
   ],
   "note": ""
  },
  {
   "property": "C97",
   "status": "proved",
   "theorems": [
    "C97_writes",
    "C97_success",
    "C97_built"
   ],
   "note": "flag, fmt, log and os are modelled as far as main.go uses them (Main.v): a path is a name of its own file, standard error is left out, and writes to standard output succeed."
  },
  {
   "property": "C98",
   "status": "proved",
   "theorems": [
    "C98_refused"
   ],
   "note": "flag, fmt, log and os are modelled as far as main.go uses them (Main.v): a path is a name of its own file, standard error is left out, and writes to standard output succeed."
  },
  {
   "property": "C99",
   "status": "partial",
   "theorems": [
    "C99_reentrant_refuted",
    "C99_undisturbed",
    "C99_one_alphabet"
   ],
   "note": "False: sharedState is a package variable. Proved for followers that leave it alone, and for texts in ASCII and Russian letters."
  },
  {
   "property": "C100",
   "status": "proved",
   "theorems": [
    "C100_ratio"
   ],
   "note": "float64 division and %.2f are modelled (Main.v div64, fixed2) and compared with the standard library's SpecFloat on examples."
  },
  {
   "property": "C101",
   "status": "proved",
   "theorems": [
    "C101_long"
   ],
   "note": "Keys without zero bytes, as everywhere."
  },
  {
   "property": "C102",
   "status": "partial",
   "theorems": [
    "C102_negative_refuted",
    "C102_negative",
    "C102_finish"
   ],
   "note": "False: the call is accepted and overwrites the child of the root, so the next keys are lost. C102_negative is its whole effect; a Finish that follows at once undoes it."
  },
  {
   "property": "C103",
   "status": "proved",
   "theorems": [
    "C103_file",
    "C103_answers",
    "C103_utfc",
    "C103_dawg"
   ],
   "note": "Also a check of the model: the file was written by the program."
  },
  {
   "property": "C104",
   "status": "proved",
   "theorems": [
    "C104_ranged",
    "C104_text"
   ],
   "note": "Against the UTF-8 table and the language's rule for range, stated in Utf8Range.v."
  },
  {
   "property": "C105",
   "status": "partial",
   "theorems": [
    "C105_strings_injective_refuted",
    "C105_strings_partial",
    "C105_strings_exact",
    "C105_valid_twin"
   ],
   "note": "Refuted: bytes outside UTF-8 all encode as U+FFFD. Holds of valid strings; the exact condition is proved."
  },
  {
   "property": "C106",
   "status": "partial",
   "theorems": [
    "C106_nul_refuted",
    "C106_damage_refuted",
    "C106_nul_partial",
    "C106_panic",
    "C106_lower",
    "C106_agrees",
    "C106_dictionary"
   ],
   "note": "False of the code. C106_nul_partial gives the results of the calls and exactly the stored entries for histories of any keys in any order, except where a key comes directly after itself up to a zero byte and the value of that one is not 0; C106_panic: if it is more than the bytes inserted so far the call panics. C106_damage_refuted: if it is smaller, unrelated keys can be lost and a key nobody inserted found; the exact outcome in that case is open. C106_agrees: without zero bytes this is the specification of C18 and C19. C106_dictionary: the dictionary, the lookups, the guide and the completions are those of the stored entries."
  },
  {
   "property": "C107",
   "status": "proved",
   "theorems": [
    "C107_order"
   ],
   "note": "The outputs are exactly the arrangement of the entries below the prefix that RankedOrderSpec.v describes; that there is only one is part of the statement (an equivalence)."
  },
  {
   "property": "C108",
   "status": "proved",
   "theorems": [
    "C108_prefix",
    "C108_keys",
    "C108_entries",
    "C108_follower",
    "C108_completer",
    "C108_ranked",
    "C108_absent"
   ],
   "note": "The plain completer without the empty text at Root (C66); texts that nothing starts with, for safe queries (C60)."
  },
  {
   "property": "C109",
   "status": "proved",
   "theorems": [
    "C109_states",
    "C109_only"
   ],
   "note": "For followers that take a number of bytes and no more; C05 is the statement for any follower."
  },
  {
   "property": "C110",
   "status": "partial",
   "theorems": [
    "C110_zero_refuted",
    "C110_zero_exact"
   ],
   "note": "False: the second alphabet of a zero value is Latin. C110_zero_exact says what is written."
  },
  {
   "property": "C111",
   "status": "proved",
   "theorems": [
    "C111_follow",
    "C111_find",
    "C111_ends"
   ],
   "note": "For the units read: any uint32 values. What Read accepts is C70."
  },
  {
   "property": "C112",
   "status": "partial",
   "theorems": [
    "C112_ends_refuted",
    "C112_keys_refuted",
    "C112_search",
    "C112_next",
    "C112_first",
    "C112_ranked",
    "C112_ranked_next",
    "C112_ranked_first"
   ],
   "note": "False of the code. Exact: a Next does not come back exactly when an endless chain of first children begins where it searches (C112_first, C112_ranked_first for the first Next); without such a chain every Next comes back. That the fuel of the model's loops is enough is part of these."
  },
  {
   "property": "C113",
   "status": "partial",
   "theorems": [
    "C113_follow_refuted",
    "C113_encode_refuted",
    "C113_plain_partial",
    "C113_own",
    "C113_alone"
   ],
   "note": "False of the code, whose comment says thread-unsafe; a step is Clear, one character or the return (Go may switch and reorder within one). Proved for texts in ASCII and \u0410-\u044f, for separate UtfcState objects, and for calls that do not overlap."
  },
  {
   "property": "C114",
   "status": "proved",
   "theorems": [
    "C114_lines",
    "C114_one_fault",
    "C114_refused",
    "C114_no_file",
    "C114_write",
    "C114_cut",
    "C114_ends",
    "C114_quote",
    "C114_quote_one",
    "C114_quote_visible",
    "C114_quote_plain",
    "C87_stopped"
   ],
   "note": "The time stamp, the name of the program, the reasons given by the system and which characters from U+0080 on are printable are parameters. The trace of a panic is not modelled."
  },
  {
   "property": "C115",
   "status": "partial",
   "theorems": [
    "C115_ends_refuted",
    "C115_enters_refuted",
    "C115_rank_ends",
    "C115_rank_panics",
    "C115_rank_value",
    "C115_rank_key",
    "C115_key_ends",
    "C115_key_panics",
    "C115_key_value",
    "C115_key",
    "C115_build_ends"
   ],
   "note": "False of the code. Exact for the Indexer: it goes on for ever exactly along labels, or children entered, without end; it panics exactly when it reads beyond an array; and the number or the key that it gives is stated for every contents. BuildIndex: comes back unless there is such a chain; not every such chain is one that it follows. Part of this is that the bounds of the model's loops are enough; an endless recursion of BuildIndex is a stack overflow in Go."
  },
  {
   "property": "C116",
   "status": "proved",
   "theorems": [
    "C116_lines",
    "C116_unique",
    "C116_cuts"
   ],
   "note": "bufio.Scanner is modelled from its source (Scanner.v). Reads that give bytes and an error at once are not modelled; files do not."
  },
  {
   "property": "C117",
   "status": "partial",
   "theorems": [
    "C117_reported_refuted",
    "C117_same",
    "C117_nothing",
    "C85_build",
    "C87_stopped",
    "C88_answers"
   ],
   "note": "False of the code. C117_same: runs with reads that deliver the same are the same, whether or not they fail; C85, C87 and C88 say what a run does with what is delivered."
  },
  {
   "property": "C118",
   "status": "proved",
   "theorems": [
    "C118_step",
    "C118_decides",
    "C118_beyond",
    "C118_lookup",
    "C118_right_or_panics",
    "C118_panics"
   ],
   "note": "Exact form of C22 and C23, whose claims are refuted. In dictionaries of more than 2^21 units (8 MB) the step from the unit of a value without bit 9 may stay within the units; C118_step holds there too."
  },
  {
   "property": "C119",
   "status": "proved",
   "theorems": [
    "C119_guide",
    "C119_one"
   ],
   "note": "For the empty lexicon the guide has no units (C40)."
  },
  {
   "property": "C120",
   "status": "proved",
   "theorems": [
    "C120_absent",
    "C120_every"
   ],
   "note": "Exact form of C43, whose claim is refuted; C67 is a sufficient condition on the query alone."
  },
  {
   "property": "C121",
   "status": "partial",
   "theorems": [
    "C121_size_refuted",
    "C121_negative",
    "C121_zero",
    "C121_dawg",
    "C121_dictionary",
    "C121_none",
    "C16_size_independent"
   ],
   "note": "The claim is false of the code for sizes below 1: init runs again at every call while the table is empty. C121_zero, C121_dawg and C121_dictionary say exactly what the size 0 does, for keys without zero bytes. Sizes from 1 to 2^32-1 are C16; tables of 2^32 slots or more (16 GB) are not covered."
  },
  {
   "property": "C122",
   "status": "proved",
   "theorems": [
    "C122_ranked_exact",
    "C122_ranked_first"
   ],
   "note": "Exact form of C78, which bounds the number and says when it is the place of the key. Keys that the index does not hold are C79."
  },
  {
   "property": "C123",
   "status": "partial",
   "theorems": [
    "C123_detects_refuted",
    "C123_no_panic_refuted",
    "C123_accepts",
    "C123_rejects",
    "C123_detects"
   ],
   "note": "The claim is false of the code. C123_accepts holds for all pairs; C123_rejects and C123_detects for keys that do not leave the dictionary by the low byte of a value (safe)."
  },
  {
   "property": "C124",
   "status": "partial",
   "theorems": [
    "C124_detects_refuted",
    "C124_no_panic_refuted",
    "C124_accepts",
    "C124_rejects",
    "C124_detects"
   ],
   "note": "The claim is false of the code. C124_accepts holds for all pairs; C124_rejects and C124_detects for keys that do not leave the dictionary by the low byte of a value (safe)."
  },
  {
   "property": "C125",
   "status": "proved",
   "theorems": [
    "C125_guide",
    "C125_converse_refuted"
   ],
   "note": "C125_guide holds for any units, any sort and any comparison, also ones that are no order; C125_converse_refuted is the note on the other direction."
  },
  {
   "property": "C126",
   "status": "partial",
   "theorems": [
    "C126_ranked_ends_refuted",
    "C126_round",
    "C126_guide_ends"
   ],
   "note": "C126_guide_ends proves the claim of BuildGuide for any units; of BuildRankedGuide it is false, and C126_round shows that findMaxValue has no result however long it runs."
  },
  {
   "property": "C127",
   "status": "proved",
   "theorems": [
    "C127_guide",
    "C127_ranked",
    "C127_ranked_result"
   ],
   "note": "The ranked builder may run for ever on such units (C126), but not where they have heights that grow less from unit to unit (C127_ranked_result). C123_no_panic_refuted and C124_no_panic_refuted are panics on units that lead outside."
  },
  {
   "property": "C128",
   "status": "proved",
   "theorems": [
    "C128_lookup",
    "C128_index",
    "C128_guides"
   ],
   "note": "From C60, C67, C123 and C124: the byte 0, the only one that such values can be taken for, is in no key."
  }
 ]
}