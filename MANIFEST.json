{
 "claims": [
  {
   "property": "C01",
   "status": "proved",
   "theorems": [
    "C01_xxh32_equals_spec"
   ],
   "note": "one-shot XXH32 model = doc/xxhash_spec.md for every build configuration"
  },
  {
   "property": "C02",
   "status": "proved",
   "theorems": [
    "C02_xxh64_equals_spec"
   ],
   "note": "one-shot XXH64 model = doc/xxhash_spec.md for every build configuration"
  },
  {
   "property": "C03",
   "status": "proved",
   "theorems": [
    "C03_xxh3_64_equals_spec",
    "C03_xxh3_64_withSeed_equals_spec",
    "C03_xxh3_64_withSecret_equals_spec",
    "C03_xxh3_64_withSecretandSeed_equals_spec"
   ],
   "note": "every build, every vector unit, every length; inputs above 240 bytes need 8*(secret length - 64) < 2^bits(size_t), which C45 shows to be necessary"
  },
  {
   "property": "C04",
   "status": "proved",
   "theorems": [
    "C04_xxh3_128_equals_spec",
    "C04_xxh3_128_withSeed_equals_spec",
    "C04_xxh3_128_withSecret_equals_spec",
    "C04_xxh3_128_withSecretandSeed_equals_spec"
   ],
   "note": "same, including XXH128"
  },
  {
   "property": "C05",
   "status": "proved",
   "theorems": [
    "C05_xxh32_stream_equals_oneshot"
   ],
   "note": "any chunking, unbounded total length"
  },
  {
   "property": "C06",
   "status": "proved",
   "theorems": [
    "C06_xxh64_stream_equals_oneshot"
   ],
   "note": "any chunking, total length < 2^64"
  },
  {
   "property": "C07",
   "status": "proved",
   "theorems": [
    "C07_xxh3_64_stream",
    "C07_xxh3_64_withSeed_stream",
    "C07_xxh3_64_withSecret_stream",
    "C07_xxh3_64_withSecretandSeed_stream"
   ],
   "note": "every reset mode, every split, every secret a size_t can measure, equal to the specification; equal to the one-shot function where C45 lets that one be defined"
  },
  {
   "property": "C08",
   "status": "proved",
   "theorems": [
    "C08_xxh3_128_stream",
    "C08_xxh3_128_withSeed_stream",
    "C08_xxh3_128_withSecret_stream",
    "C08_xxh3_128_withSecretandSeed_stream"
   ],
   "note": "same for 128 bits"
  },
  {
   "property": "C09",
   "status": "proved",
   "theorems": [
    "C09_xxh32_intermediate_digests",
    "C09_xxh64_intermediate_digests",
    "C09_xxh3_intermediate_digests"
   ],
   "note": "digests at every point of every stream"
  },
  {
   "property": "C10",
   "status": "proved",
   "theorems": [
    "C10_xxh32_history",
    "C10_xxh64_history",
    "C10_xxh3_history",
    "C10_xxh32_no_interference",
    "C10_xxh64_no_interference",
    "C10_xxh3_no_interference"
   ],
   "note": "refinement of a map object -> (parameters, bytes) by induction over the calls"
  },
  {
   "property": "C11",
   "status": "proved",
   "theorems": [
    "C11_state_reuse",
    "C11_without_INITSTATE_refuted"
   ],
   "note": "holds for states from createState/INITSTATE; the refutation shows INITSTATE is needed"
  },
  {
   "property": "C12",
   "status": "proved",
   "theorems": [
    "C12_accumulate_equals_scalar",
    "C12_accumulate_512_equals_scalar",
    "C12_scramble_equals_scalar",
    "C12_initCustomSecret_equals_scalar"
   ],
   "note": "SSE2, AVX2, AVX512, NEON (2/4/6/8 lanes, WASM), VSX, SVE of any width"
  },
  {
   "property": "C13",
   "status": "proved",
   "theorems": [
    "C13_selects_supported",
    "C13_tables_supported",
    "C13_oneshot64",
    "C13_oneshot128",
    "C13_stream64",
    "C13_stream128",
    "C13_null_row_refuted"
   ],
   "note": "selection exact for every CPUID/XGETBV report; results after any history of dispatched calls; the refutation: with XXH_DISPATCH_SCALAR off (the x64 default) and a processor without SSE2 the call goes through a NULL row"
  },
  {
   "property": "C14",
   "status": "proved",
   "theorems": [
    "C14_mult64to128_exact",
    "C14_mul128_fold64_exact"
   ],
   "note": ""
  },
  {
   "property": "C15",
   "status": "proved",
   "theorems": [
    "C15_read32",
    "C15_read64"
   ],
   "note": ""
  },
  {
   "property": "C16",
   "status": "proved",
   "theorems": [
    "C16_canonical32",
    "C16_canonical64",
    "C16_canonical128"
   ],
   "note": "both round trips and the byte order, in every build"
  },
  {
   "property": "C17",
   "status": "proved",
   "theorems": [
    "C17_isEqual",
    "C17_cmp_is_numeric_order",
    "C17_cmp_total_order"
   ],
   "note": ""
  },
  {
   "property": "C18",
   "status": "partial",
   "theorems": [
    "C18_oneshot_defined",
    "C18_histories_defined",
    "C18_xxh32_huge_update_refuted",
    "C18_xxh64_huge_update_refuted"
   ],
   "note": "proved for every one-shot call and every history with single updates at most SIZE_MAX-15 (XXH32) or SIZE_MAX-31 (XXH64) bytes long; false beyond: memsize + len wraps and the state buffer overflows"
  },
  {
   "property": "C19",
   "status": "proved",
   "theorems": [
    "C19_generateSecret",
    "C19_generateSecret_errors"
   ],
   "note": "the buffer may lie anywhere in a block; the seed is a separate object"
  },
  {
   "property": "C20",
   "status": "proved",
   "theorems": [
    "C20_fromSeed",
    "C20_fromSeed_0"
   ],
   "note": ""
  },
  {
   "property": "C21",
   "status": "proved",
   "theorems": [
    "C21_withSecretandSeed_is_withSeed",
    "C21_streams"
   ],
   "note": ""
  },
  {
   "property": "C22",
   "status": "proved",
   "theorems": [
    "C22_withSecretandSeed_split",
    "C22_header_boundary_refuted"
   ],
   "note": "boundary is <= 240; the header text is off by one"
  },
  {
   "property": "C23",
   "status": "proved",
   "theorems": [
    "C23_seed_zero_oneshot",
    "C23_seed_zero_stream"
   ],
   "note": ""
  },
  {
   "property": "C24",
   "status": "proved",
   "theorems": [
    "C24_low_half",
    "C24_other_lengths_differ"
   ],
   "note": ""
  },
  {
   "property": "C25",
   "status": "proved",
   "theorems": [
    "C25_xxh32_word",
    "C25_xxh32_word_streamed"
   ],
   "note": "also for the last, incomplete word; the two sides may use different builds and different splits into updates"
  },
  {
   "property": "C26",
   "status": "proved",
   "theorems": [
    "C26_xxh64_tail",
    "C26_xxh64_keys",
    "C26_two_bytes_refuted"
   ],
   "note": "the refutation shows two bytes of the last three can collide, so the words cannot be replaced by ranges"
  },
  {
   "property": "C27",
   "status": "proved",
   "theorems": [
    "C27_xxh3_64_seeded",
    "C27_xxh3_64_secret"
   ],
   "note": "also between different lengths from 1 to 3"
  },
  {
   "property": "C28",
   "status": "proved",
   "theorems": [
    "C28_xxh3_128_seeded",
    "C28_xxh3_128_secret"
   ],
   "note": ""
  },
  {
   "property": "C29",
   "status": "proved",
   "theorems": [
    "C29_seeds"
   ],
   "note": "also XXH3 128-bit up to 16 bytes"
  },
  {
   "property": "C30",
   "status": "partial",
   "theorems": [
    "C30_short_secret_error_refuted",
    "C30_short_secret_is_undefined",
    "C30_null_secret_destroys_state"
   ],
   "note": "false of the code: the XXH_ASSERT of reset_internal comes before the checks; only the NULL case with a valid size reports XXH_ERROR"
  },
  {
   "property": "C31",
   "status": "proved",
   "theorems": [
    "C31_failing_withSecretandSeed_keeps_state",
    "C31_null_state_is_error"
   ],
   "note": "later digests: C10_xxh3_history includes failing resets"
  },
  {
   "property": "C32",
   "status": "proved",
   "theorems": [
    "C32_empty_updates_change_nothing",
    "C32_null_update"
   ],
   "note": "in any history of calls, all three families"
  },
  {
   "property": "C33",
   "status": "proved",
   "theorems": [
    "C33_aligned_allocator",
    "C33_createState_freeState",
    "C33_plain_states"
   ],
   "note": "every base address, size and alignment 8..128, any history of the heap between allocation and free; sizeof(XXH3_state_t) = 576 is read off the declaration"
  },
  {
   "property": "C34",
   "status": "partial",
   "theorems": [
    "C34_xxh32_exact",
    "C34_xxh64_exact",
    "C34_xxh3_accumulate_exact",
    "C34_xxh32_refuted",
    "C34_xxh64_refuted",
    "C34_xxh3_refuted"
   ],
   "note": "false of the code; the exact theorems say for which calls a pointer outside the object is formed"
  },
  {
   "property": "C35",
   "status": "proved",
   "theorems": [
    "C35_HashFast_equals_withSeed",
    "C35_HashFast128",
    "C35_HashFast128_seed",
    "C35_other_lengths_differ"
   ],
   "note": ""
  },
  {
   "property": "C36",
   "status": "partial",
   "theorems": [
    "C36_word_change_refuted",
    "C36_word_change_everywhere_refuted",
    "C36_lost_only_in_its_product"
   ],
   "note": "false of the code: for every length from 17 to 240, every seed and every window with a word of its own, the other word can be such that all 2^64 values give one hash; what holds is proved: the change is lost exactly when the folded product of its window is unchanged. Above 240 bytes see C82 and C69"
  },
  {
   "property": "C37",
   "status": "proved",
   "theorems": [
    "C37_printed_lines_parse_back",
    "C37_parser_exact"
   ],
   "note": "both directions: what is printed parses back, and the parser accepts exactly the lines of the grammar Accepts"
  },
  {
   "property": "C38",
   "status": "proved",
   "theorems": [
    "C38_escaping",
    "C38_unescaping"
   ],
   "note": ""
  },
  {
   "property": "C39",
   "status": "proved",
   "theorems": [
    "C39_verdict",
    "C39_outcomes",
    "C39_all_lists",
    "C39_read_error_refuted"
   ],
   "note": "verdict and output for every checksum file; the last clause of the statement (the file was read to the end) is refuted: a read error on the checksum file is taken for its end"
  },
  {
   "property": "C40",
   "status": "proved",
   "theorems": [
    "C40_hash_of_stream"
   ],
   "note": ""
  },
  {
   "property": "C41",
   "status": "proved",
   "theorems": [
    "C41_numbers",
    "C41_largest_refuted"
   ],
   "note": "the refutation: 4294967290 to 4294967295 are refused though they fit"
  },
  {
   "property": "C42",
   "status": "proved",
   "theorems": [
    "C42_getLine",
    "C42_lines_of"
   ],
   "note": "any initial buffer size from 1 to 32768, any behaviour of realloc"
  },
  {
   "property": "C43",
   "status": "partial",
   "theorems": [
    "C43_foreign_tags_refuted",
    "C43_tags"
   ],
   "note": "false of the code: only the first three letters of the tag and the presence of _LE are looked at; C43_tags says what is guaranteed"
  },
  {
   "property": "C44",
   "status": "partial",
   "theorems": [
    "C44_file_named_stdin_refuted",
    "C44_same_file"
   ],
   "note": "false of the code for a file called stdin; proved for every other name"
  },
  {
   "property": "C46",
   "status": "partial",
   "theorems": [
    "C46_xxh64_stripe_word_refuted",
    "C46_word_changes_one_accumulator"
   ],
   "note": "false of the code: explicit pair; what holds is proved: the change always reaches exactly the accumulator of its lane and is lost exactly when the merged accumulators coincide"
  },
  {
   "property": "C45",
   "status": "partial",
   "theorems": [
    "C45_huge_secret_refuted",
    "C45_exact",
    "C45_streaming"
   ],
   "note": "false of the code; C45_exact determines for which secrets and inputs the one-shot functions are right; C45_streaming: the streaming functions are right for every secret"
  },
  {
   "property": "C47",
   "status": "partial",
   "theorems": [
    "C47_sve_big_endian_refuted"
   ],
   "note": "false of the code for big-endian SVE; C12 proves every other combination"
  },
  {
   "property": "C50",
   "status": "proved",
   "theorems": [
    "C50_print_then_check"
   ],
   "note": ""
  },
  {
   "property": "C51",
   "status": "partial",
   "theorems": [
    "C51_status_is_silent",
    "C51_status_prints_refuted"
   ],
   "note": "false of the code together with --ignore-missing; proved without it"
  },
  {
   "property": "C53",
   "status": "proved",
   "theorems": [
    "C53_hash_exit_status"
   ],
   "note": "when no allocation fails"
  },
  {
   "property": "C48",
   "status": "partial",
   "theorems": [
    "C48_bench_table_refuted",
    "C48_defined",
    "C48_small_numbers"
   ],
   "note": "false of the code for -b2147483648; the exact condition is proved"
  },
  {
   "property": "C49",
   "status": "proved",
   "theorems": [
    "C49_command_line",
    "C49_exact",
    "C49_documented",
    "C49_bench_selection_refuted"
   ],
   "note": "the refutation: a variant 0 behind the chosen ones drops them"
  },
  {
   "property": "C52",
   "status": "partial",
   "theorems": [
    "C52_dash_refuted",
    "C52_dash_ignored",
    "C52_dash_alone",
    "C52_console",
    "C52_aliases",
    "C52_aliases_check_refuted"
   ],
   "note": "false of the code: - is a file name behind another name and ignored before one; the program names also restrict the algorithms accepted by -c. What does hold is proved."
  },
  {
   "property": "C54",
   "status": "proved",
   "theorems": [
    "C54_end_to_end"
   ],
   "note": ""
  },
  {
   "property": "C55",
   "status": "proved",
   "theorems": [
    "C55_selftest_passes",
    "C55_selftest_detects",
    "C55_selftest_accepts",
    "C55_generator_test",
    "C55_random_lengths"
   ],
   "note": "allocation of the states is assumed to succeed; the random cutting loop is proved to end for every length up to 2^24 and every odd generator state (XXH3_randomUpdate has no bound of its own)"
  },
  {
   "property": "C56",
   "status": "partial",
   "theorems": [
    "C56_internal",
    "C56_files",
    "C56_whole_file",
    "C56_internal_refuted"
   ],
   "note": "proved for sample sizes whose buffer size does not wrap (keySize + 19 < 2^szbits; always so for files); refuted for the others: with a 32-bit size_t, -B4294967289 reads 4 GB from a 12-byte buffer. There is a first round unless the number of -i is negative as an int (C106). Speeds and messages are not modelled; the numbers of calls of later rounds are arbitrary (C106 computes them from the clock)"
  },
  {
   "property": "C57",
   "status": "partial",
   "theorems": [
    "C57_probe_ends",
    "C57_ends_refuted"
   ],
   "note": "proved when some request is granted; refuted for an allocator that refuses every request, down to the requests for 0 bytes"
  },
  {
   "property": "C58",
   "status": "proved",
   "theorems": [
    "C58_xxh32_equals_cryptol",
    "C58_xxh64_equals_cryptol",
    "C58_documents_agree"
   ],
   "note": "words of the Cryptol model are sequences of bits, most significant first"
  },
  {
   "property": "C59",
   "status": "proved",
   "theorems": [
    "C59_racing_calls_are_right",
    "C59_wait_free",
    "C59_tables_supported"
   ],
   "note": "accesses to one pointer are single steps seen by all threads in one order; the C standard calls the unsynchronised accesses a data race, so this is a statement about the machine code"
  },
  {
   "property": "C60",
   "status": "proved",
   "theorems": [
    "C60_sparse_samples",
    "C60_sparse_samples_are_unique",
    "C60_refusal"
   ],
   "note": "Cnm's double arithmetic is modelled exactly while products stay below 2^53; beyond that the model stops (NoFuel) and the theorems say nothing"
  },
  {
   "property": "C61",
   "status": "proved",
   "theorems": [
    "C61_slab5_samples_are_unique",
    "C61_seed_selects_the_samples_refuted"
   ],
   "note": "the second theorem refutes the claim that --seed changes the samples of this build"
  },
  {
   "property": "C62",
   "status": "proved",
   "theorems": [
    "C62_filter_is_complete"
   ],
   "note": "2-probe filter (the one compiled)"
  },
  {
   "property": "C63",
   "status": "proved",
   "theorems": [
    "C63_reported_collisions",
    "C63_same_number_with_any_options",
    "C63_run_without_filter_reports",
    "C63_no_undefined_shift_refuted",
    "C63_candidates_never_exceed_announced_refuted"
   ],
   "note": "two refuted side claims; std::sort is a parameter constrained to be a permutation sorted by XXH128_cmp; jobs are run one after the other"
  },
  {
   "property": "C64",
   "status": "proved",
   "theorems": [
    "C64_numbers_are_read_exactly"
   ],
   "note": ""
  },
  {
   "property": "C65",
   "status": "proved",
   "theorems": [
    "C65_pool_defined",
    "C65_pool_mutual_exclusion",
    "C65_pool_unlocked_stores",
    "C65_pool_no_use_after_free"
   ],
   "note": "pthread operations as specified by POSIX; plain code under the mutex is one step; clients run between POOL_create and POOL_free"
  },
  {
   "property": "C66",
   "status": "proved",
   "theorems": [
    "C66_pool_fifo",
    "C66_pool_each_job_once",
    "C66_pool_limit"
   ],
   "note": "histories of jobs are ghost fields of the model"
  },
  {
   "property": "C67",
   "status": "proved",
   "theorems": [
    "C67_pool_no_deadlock",
    "C67_pool_terminates",
    "C67_pool_can_finish",
    "C67_pool_done"
   ],
   "note": "the jobs themselves are single steps that end"
  },
  {
   "property": "C68",
   "status": "partial",
   "theorems": [
    "C68_pool_worker_free",
    "C68_pool_worker_free_refuted"
   ],
   "note": "proved without POOL_resize, refuted with it (two workers run, limit 1, third job accepted)"
  },
  {
   "property": "C69",
   "status": "partial",
   "theorems": [
    "C69_xxh3_64_one_bit_refuted",
    "C69_xxh3_128_one_bit_refuted",
    "C69_xxh3_64_one_bit_long_refuted"
   ],
   "note": "refuted, with a colliding pair for every seed and every value of the free bytes: u makes one factor of the 64x64->128 product equal to 1. The positive results are C27, C28 (short inputs) and C70 (128 bits, 17 to 240 bytes) and C82 (above 240 bytes)"
  },
  {
   "property": "C70",
   "status": "proved",
   "theorems": [
    "C70_xxh3_128_word_seeded",
    "C70_xxh3_128_word_secret",
    "C70_every_word"
   ],
   "note": "the sum of the two words of a window is xored into the other lane; low-62-bit differences survive additions and xors; the kernel of the final map (l,h) -> (l+h, l*P1+h*P4) is 2^62*(1,-1) because P1-P4 is 4 times an odd number"
  },
  {
   "property": "C71",
   "status": "partial",
   "theorems": [
    "C71_xxh64_half_of_seeds_refuted",
    "C71_xxh32_half_of_seeds_refuted"
   ],
   "note": "refuted; for XXH32 the set of colliding seeds is determined exactly, for XXH64 it contains all seeds below 2^63"
  },
  {
   "property": "C72",
   "status": "proved",
   "theorems": [
    "C72_xxh32_word",
    "C72_xxh64_word",
    "C72_xxh3_permutations",
    "C72_xxh3_secret_permutations",
    "C72_seed"
   ],
   "note": "existence by the pigeonhole principle from the injectivity lemmas of C25 to C29"
  },
  {
   "property": "C73",
   "status": "proved",
   "theorems": [
    "C73_one_of_two_cases",
    "C73_benchFunction_success",
    "C73_benchFunction_failure"
   ],
   "note": "the world is an arbitrary type with arbitrary functions; time per run is kept as an exact fraction instead of a double"
  },
  {
   "property": "C74",
   "status": "partial",
   "theorems": [
    "C74_each_result_checked_refuted",
    "C74_completed_after_error_refuted",
    "C74_number_of_blocks_refuted"
   ],
   "note": "refuted; what does hold is C73"
  },
  {
   "property": "C75",
   "status": "proved",
   "theorems": [
    "C75_time_spans"
   ],
   "note": "the C11 clock; the Windows, Mach and C90 clocks are not modelled"
  },
  {
   "property": "C76",
   "status": "proved",
   "theorems": [
    "C76_session_ends"
   ],
   "note": "durations are exact fractions instead of doubles"
  },
  {
   "property": "C77",
   "status": "partial",
   "theorems": [
    "C77_best_round_refuted",
    "C77_last_run"
   ],
   "note": "refuted; C77_last_run says what is reported instead"
  },
  {
   "property": "C78",
   "status": "proved",
   "theorems": [
    "C78_readInt",
    "C78_readInt_any"
   ],
   "note": ""
  },
  {
   "property": "C79",
   "status": "proved",
   "theorems": [
    "C79_named_hashes",
    "C79_latency_chain",
    "C79_main",
    "C79_numeric_option",
    "C79_hash_name",
    "C79_unknown_argument"
   ],
   "note": "printed text not modelled, only the cells; the smallest size 0 is C80"
  },
  {
   "property": "C80",
   "status": "partial",
   "theorems": [
    "C80_min_size_zero_refuted",
    "C80_min_size_partial"
   ],
   "note": "refuted by --mins=0; the rest proved"
  },
  {
   "property": "C81",
   "status": "partial",
   "theorems": [
    "C81_two_bits_seed_refuted",
    "C81_two_bits_secret_refuted"
   ],
   "note": "refuted; what does hold of one changed word is C82"
  },
  {
   "property": "C82",
   "status": "proved",
   "theorems": [
    "C82_word_reaches_accumulators",
    "C82_word_lost_only_in_its_product"
   ],
   "note": "C69 and C81 show that the products can be equal and that two words can cancel"
  },
  {
   "property": "C83",
   "status": "proved",
   "theorems": [
    "C83_words",
    "C83_stops",
    "C83_default_number",
    "C83_auto_filter",
    "C83_main",
    "C83_run_reports"
   ],
   "note": "C85 lists arguments that are not refused though they should be; the run with the filter can end in an assertion (C63, C85)"
  },
  {
   "property": "C84",
   "status": "proved",
   "theorems": [
    "C84_high_bits",
    "C84_every_width_refuted"
   ],
   "note": "the widths above 64 are selected only if the estimate is above 18, which needs more than 2^35 hashes"
  },
  {
   "property": "C85",
   "status": "partial",
   "theorems": [
    "C85_seed_with_equals_sign_refuted",
    "C85_malformed_number_refused_refuted",
    "C85_thread_number_refuted",
    "C85_filter_for_few_hashes_refuted"
   ],
   "note": "refuted; what does hold of the command line is C83"
  },
  {
   "property": "C86",
   "status": "proved",
   "theorems": [
    "C86_tester_exact",
    "C86_random_lengths",
    "C86_count_refuted"
   ],
   "note": "the number printed is refuted; acceptance is proved"
  },
  {
   "property": "C87",
   "status": "proved",
   "theorems": [
    "C87_generator_exact",
    "C87_header_text"
   ],
   "note": ""
  },
  {
   "property": "C88",
   "status": "proved",
   "theorems": [
    "C88_generated_accepted"
   ],
   "note": ""
  },
  {
   "property": "C89",
   "status": "partial",
   "theorems": [
    "C89_portable_header_refuted",
    "C89_portable_header"
   ],
   "note": "refuted for different widths of size_t, proved for equal ones"
  },
  {
   "property": "C90",
   "status": "proved",
   "theorems": [
    "C90_arguments",
    "C90_files",
    "C90_lone_surrogate",
    "C90_lone_refuted"
   ],
   "note": "the round trip is proved for well-formed names; for lone surrogates it is refuted"
  },
  {
   "property": "C91",
   "status": "proved",
   "theorems": [
    "C91_files",
    "C91_arguments",
    "C91_program"
   ],
   "note": ""
  },
  {
   "property": "C92",
   "status": "partial",
   "theorems": [
    "C92_output",
    "C92_va_list",
    "C92_va_list_refuted",
    "C92_empty",
    "C92_empty_refuted"
   ],
   "note": "proved where a va_list is passed by value; refuted for other va_lists and for the return value of the empty text"
  },
  {
   "property": "C93",
   "status": "partial",
   "theorems": [
    "C93_defined",
    "C93_progress",
    "C93_join",
    "C93_value_refuted"
   ],
   "note": "all but the delivered value is proved; for that, each of the two values has an execution. Failures of WaitForSingleObject (EINVAL, GetLastError) are not modelled"
  },
  {
   "property": "C94",
   "status": "partial",
   "theorems": [
    "C94_grow_refuted",
    "C94_never_ends"
   ],
   "note": "refuted. The pool is modelled here only by its calls of the emulation and the fact that POOL_thread returns after shutdown; its queue is in C65-C68"
  },
  {
   "property": "C95",
   "status": "proved",
   "theorems": [
    "C95_runs_all",
    "C95_resize_zero_refuted"
   ],
   "note": "the main claim is proved; that both builds refuse 0 threads is refuted"
  },
  {
   "property": "C96",
   "status": "partial",
   "theorems": [
    "C96_builds_are_covered",
    "C96_default_compiles",
    "C96_default_build_hashes",
    "C96_vector_available",
    "C96_vector_widest",
    "C96_alignment",
    "C96_sve_big_endian_refuted",
    "C96_no_alignment_refuted"
   ],
   "note": "refuted for SVE on big-endian targets and for compilers without alignment; everything else proved. XXH_ACC_ALIGN set by the user, the choice of headers and inlining hints are not modelled; that GCC's packed attribute is accepted when XXH_FORCE_MEMORY_ACCESS is 1 is not either"
  },
  {
   "property": "C97",
   "status": "proved",
   "theorems": [
    "C97_dispatch_build",
    "C97_dispatch_compiles",
    "C97_levels",
    "C97_no_leaves_refuted"
   ],
   "note": "proved for processors as described; the last theorem shows that the description cannot be weakened to processors that merely have SSE2"
  },
  {
   "property": "C98",
   "status": "partial",
   "theorems": [
    "C98_banner_names_the_code",
    "C98_unambiguous",
    "C98_processor",
    "C98_byte_order",
    "C98_arm64ec",
    "C98_dispatch",
    "C98_compiler_version",
    "C98_big_endian_refuted",
    "C98_no_sse2_refuted",
    "C98_s390x_refuted",
    "C98_chosen_refuted"
   ],
   "note": "refuted without the conditions on the compiler (four witnesses); proved under them. Compiler versions that are strings are not modelled"
  },
  {
   "property": "C99",
   "status": "proved",
   "theorems": [
    "C99_unicode_test",
    "C99_unicode_test_detects",
    "C99_generator_result",
    "C99_fuzzer"
   ],
   "note": "the text of the two scripts is not modelled, only the commands of the shell script"
  },
  {
   "property": "C100",
   "status": "partial",
   "theorems": [
    "C100_windows",
    "C100_windows_abort",
    "C100_mach",
    "C100_c90",
    "C100_c90_five_hours",
    "C100_clockSpan",
    "C100_wait",
    "C100_wait_stopped_clock",
    "C100_windows_half_hour_refuted",
    "C100_mach_unchecked_refuted",
    "C100_clockSpan_overflow_refuted"
   ],
   "note": "exactness refuted for long spans and failing calls (three witnesses); the exact condition for it proved"
  },
  {
   "property": "C101",
   "status": "partial",
   "theorems": [
    "C101_any_order",
    "C101_older_c_plain",
    "C101_older_c_inline",
    "C101_inline",
    "C101_plain",
    "C101_library",
    "C101_links",
    "C101_namespaces",
    "C101_older_c_refuted",
    "C101_namespace_refuted",
    "C101_implementation_first_refuted",
    "C101_dispatch_after_inline_refuted",
    "C101_dispatch_namespaces_refuted"
   ],
   "note": "five orders or namespaces refuted, with witnesses; everything else proved"
  },
  {
   "property": "C102",
   "status": "proved",
   "theorems": [
    "C102_lists",
    "C102_comment_line",
    "C102_ignore_missing",
    "C102_filename_escape"
   ],
   "note": ""
  },
  {
   "property": "C103",
   "status": "partial",
   "theorems": [
    "C103_same_program",
    "C103_hash_text",
    "C103_check_text",
    "C103_no_silent_failure",
    "C103_quiet_success",
    "C103_status_refuted"
   ],
   "note": "only the last sentence (--status silences everything) is refuted, with a witness; everything else proved; the texts of --version, --help and the usage are arguments of the model"
  },
  {
   "property": "C104",
   "status": "proved",
   "theorems": [
    "C104_same_program",
    "C104_allowed",
    "C104_given_back",
    "C104_hash",
    "C104_check"
   ],
   "note": "the benchmark is C105; that these runs have no undefined behaviour and end is C39, C53 and C54"
  },
  {
   "property": "C105",
   "status": "proved",
   "theorems": [
    "C105_same_program",
    "C105_internal",
    "C105_files"
   ],
   "note": "of the runs that have a result; which runs have one is C56 and C57; the malloc of XSUM_strcatDup (the name of an unaligned test) is assumed to succeed, as in C56: the code only asserts it"
  },
  {
   "property": "C106",
   "status": "partial",
   "theorems": [
    "C106_report",
    "C106_defined",
    "C106_ends",
    "C106_ends_refuted",
    "C106_defined_refuted",
    "C106_report_refuted"
   ],
   "note": "false without assumptions: if no time passes on the clock the loop never ends, and the number of calls becomes 0 since it is multiplied by 100 modulo 2^32 (C106_ends_refuted); with -i0 -q -q and a hash faster than a tick an infinity is converted to unsigned (C106_defined_refuted); -i accepts 2^31 and more, which are negative as an int, and then no hash is computed at all (C106_report_refuted). Proved: all three for 0 <= N < 2^31 - 1, the second without -q -q or for calls of more than 2^-32 seconds, the third for a hash of nearly constant speed. Doubles are exact fractions, infinities or NaN, without rounding."
  },
  {
   "property": "C107",
   "status": "proved",
   "theorems": [
    "C107_same_program",
    "C107_internal",
    "C107_text",
    "C107_no_silent_failure"
   ],
   "note": "what the tests print (with the speeds) is an arbitrary text for each sample; the exact text is proved when some request of the probe is granted (C57); the welcome message and XSUM_sanityCheck come first and are not part of it"
  },
  {
   "property": "C108",
   "status": "partial",
   "theorems": [
    "C108_xxh3_128_low_bits",
    "C108_xxh3_128_refuted",
    "C108_xxh3_64_refuted",
    "C108_xxh3_64_short_refuted",
    "C108_xxh32_refuted"
   ],
   "note": "refuted for XXH32 (one pair of seeds) and for both widths of XXH3 (constructions for every seed); the part that holds is proved (C108_xxh3_128_low_bits, C29). Not decided: XXH64 from 32 bytes on, XXH3 above 240 bytes"
  },
  {
   "property": "C109",
   "status": "partial",
   "theorems": [
    "C109_told",
    "C109_lengths",
    "C109_every_digest_refuted"
   ],
   "note": "the claim that every digest is reached is refuted; C109_told and C109_lengths hold. The secrets are long enough for the calls with a secret (136 bytes)"
  },
  {
   "property": "C110",
   "status": "partial",
   "theorems": [
    "C110_xxh32_uniform",
    "C110_xxh64_uniform",
    "C110_xxh3_128_uniform_refuted"
   ],
   "note": "proved for XXH32 (all lengths from 4) and for XXH64 with 8 bytes or more after the last stripe; refuted for XXH3 128-bit from 17 to 240 bytes. Not decided: XXH64 with fewer than 8 bytes after the last stripe, XXH3 64-bit, XXH3 128-bit at other lengths"
  },
  {
   "property": "C111",
   "status": "partial",
   "theorems": [
    "C111_xxh3_64",
    "C111_xxh3_128",
    "C111_same_128"
   ],
   "note": "the theorems refute the title: the 64-bit hash takes every value, the 128-bit hash every value that C109 allows. The bytes are computed in the proofs by formulas (P_Forge3.v) but the statements only say that they exist. Not decided: 17 to 23 and 33 to 39 bytes (64 bits), 17 to 31 and 33 to 39 bytes (128 bits), and more than 240 bytes"
  },
  {
   "property": "C112",
   "status": "partial",
   "theorems": [
    "C112_xxh3_long",
    "C112_any_data"
   ],
   "note": "the theorems refute the title. The bytes are computed in the proofs by formulas (P_Forge4.v) but the statements only say that they exist. Not decided: lengths with fewer than 32 bytes after the last full stripe, and both halves of the 128-bit hash at once. For secrets the number of blocks is computed without overflow (8 * (length - 64) fits in size_t), as in C03"
  },
  {
   "property": "C113",
   "status": "partial",
   "theorems": [
    "C113_one_of_8_and_of_16",
    "C113_zeros_refuted"
   ],
   "note": "the theorems refute the title; C113_one_of_8_and_of_16 holds for all inputs and seeds. That inputs of 1 to 3 bytes are told apart also when their lengths differ is part of C27"
  }
 ]
}