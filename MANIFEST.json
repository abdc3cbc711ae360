{
 "claims": [
  {
   "property": "C01",
   "status": "proved",
   "theorems": [
    "C01_query_sound"
   ],
   "note": "any history, any schedule, any panic; all containers and band hashes"
  },
  {
   "property": "C02",
   "status": "proved",
   "theorems": [
    "C02_query_recall"
   ],
   "note": ""
  },
  {
   "property": "C03",
   "status": "proved",
   "theorems": [
    "C03_query_exact",
    "C03_query_exact_collision_free",
    "C03_history_independent",
    "C03_history_independent_dirty_refuted"
   ],
   "note": "the refuted theorem shows the 'clean' hypothesis is needed"
  },
  {
   "property": "C04",
   "status": "proved",
   "theorems": [
    "C04_recall_pigeonhole",
    "C04_bound_sharp_refuted"
   ],
   "note": "the refuted theorem shows the bound is sharp"
  },
  {
   "property": "C05",
   "status": "proved",
   "theorems": [
    "C05_self_retrieval"
   ],
   "note": ""
  },
  {
   "property": "C06",
   "status": "proved",
   "theorems": [
    "C06_index_is_map"
   ],
   "note": ""
  },
  {
   "property": "C07",
   "status": "proved",
   "theorems": [
    "C07_query_one_any",
    "C07_query_one_clean",
    "C07_threshold_one_never_answers",
    "C07_query_one_complete_refuted"
   ],
   "note": "exact for clean histories; refuted theorem: query_one is not complete w.r.t. query (strict comparison)"
  },
  {
   "property": "C08",
   "status": "proved",
   "theorems": [
    "C08_query_variants_agree"
   ],
   "note": ""
  },
  {
   "property": "C09",
   "status": "proved",
   "theorems": [
    "C09_return_similarity",
    "C09_never_panics_refuted"
   ],
   "note": "refuted theorem: panics on stale ids"
  },
  {
   "property": "C10",
   "status": "proved",
   "theorems": [
    "C10_top_k",
    "C10_no_hashes",
    "C10_never_panics_refuted"
   ],
   "note": "lengths below 2^51; refuted theorem: panics on stale ids and on band width 0"
  },
  {
   "property": "C11",
   "status": "proved",
   "theorems": [
    "C11_par_bulk_insert_sequential",
    "C11_par_bulk_insert_pairs_sequential"
   ],
   "note": ""
  },
  {
   "property": "C12",
   "status": "proved",
   "theorems": [
    "C12_bulk_remove_sequential",
    "C12_bulk_remove_map",
    "C12_bulk_remove_absent_refuted"
   ],
   "note": "refuted theorem: with an absent id the bands are not cleaned"
  },
  {
   "property": "C13",
   "status": "proved",
   "theorems": [
    "C13_container_independent",
    "C13_hash_independent",
    "C13_container_independent_dirty_refuted"
   ],
   "note": "refuted theorem: containers differ after re-insertion of a live id"
  },
  {
   "property": "C14",
   "status": "proved",
   "theorems": [
    "C14_no_garbage",
    "C14_no_empty_bucket",
    "C14_emptied",
    "C14_no_garbage_dirty_refuted"
   ],
   "note": "refuted theorem: overwritten entries are never freed"
  },
  {
   "property": "C15",
   "status": "proved",
   "theorems": [
    "C15_wrong_length_rejected",
    "C15_bulk_checks",
    "C15_poisoned",
    "C15_bulk_insert_safe_refuted"
   ],
   "note": "refuted theorem: bulk insertion lets ill-sized signatures through"
  },
  {
   "property": "C16",
   "status": "proved",
   "theorems": [
    "C16_shrink_keeps_state",
    "C16_shrink_to_panics_iff",
    "C16_shrink_to_small_panics"
   ],
   "note": "counts up to 2^53"
  },
  {
   "property": "C17",
   "status": "proved",
   "theorems": [
    "C17_similarity",
    "C17_similarity_strict",
    "C17_similarity_errors",
    "C17_distance"
   ],
   "note": "lengths up to 2^53 (2^51 for strict monotonicity)"
  },
  {
   "property": "C18",
   "status": "proved",
   "theorems": [
    "C18_greater_than_threshold",
    "C18_implied_by_similarity",
    "C18_equivalence_refuted",
    "C18_empty"
   ],
   "note": "lengths below 2^32 (u32 counter); refuted theorem: not equivalent to similarity >= threshold"
  },
  {
   "property": "C19",
   "status": "proved",
   "theorems": [
    "C19_signature_shape",
    "C19_signature_value",
    "C19_into_vec"
   ],
   "note": ""
  },
  {
   "property": "C20",
   "status": "proved",
   "theorems": [
    "C20_depends_on_set_only",
    "C20_same_set_similarity_one"
   ],
   "note": ""
  },
  {
   "property": "C21",
   "status": "proved",
   "theorems": [
    "C21_pointwise_minimum",
    "C21_narrow_refuted",
    "C21_empty_refuted"
   ],
   "note": "32 and 64 bit; refuted theorems: fails for 16/8 bit and for an empty input"
  },
  {
   "property": "C22",
   "status": "proved",
   "theorems": [
    "C22_truncation",
    "C22_similarity_not_lower"
   ],
   "note": "up to 2^53 hashes for the similarity comparison"
  },
  {
   "property": "C23",
   "status": "proved",
   "theorems": [
    "C23_agreement",
    "C23_shared_minimum",
    "C23_disjoint_never_agree"
   ],
   "note": "collision-freedom is only required on the tokens of the two sets"
  },
  {
   "property": "C24",
   "status": "proved",
   "theorems": [
    "C24_bulk",
    "C24_compute_similarity"
   ],
   "note": ""
  },
  {
   "property": "C25",
   "status": "proved",
   "theorems": [
    "C25_params",
    "C25_default_proba",
    "C25_reaches_proba_refuted"
   ],
   "note": "any powf; refuted theorem: the answer can miss the desired probability"
  },
  {
   "property": "C26",
   "status": "proved",
   "theorems": [
    "C26_calculate_centroid"
   ],
   "note": ""
  },
  {
   "property": "C27",
   "status": "proved",
   "theorems": [
    "C27_minhash_centroid",
    "C27_minhash_centroid_ragged"
   ],
   "note": ""
  },
  {
   "property": "C28",
   "status": "proved",
   "theorems": [
    "C28_query_exact"
   ],
   "note": "any width above 1 bit"
  },
  {
   "property": "C29",
   "status": "proved",
   "theorems": [
    "C29_boundary",
    "C29_distance_zero",
    "C29_documented_bound_refuted",
    "C29_identical_refuted"
   ],
   "note": "refuted theorems: documented bound <= distance; identical signature at distance 0"
  },
  {
   "property": "C30",
   "status": "proved",
   "theorems": [
    "C30_query_one"
   ],
   "note": ""
  },
  {
   "property": "C31",
   "status": "proved",
   "theorems": [
    "C31_query_return_distance",
    "C31_bulk_queries"
   ],
   "note": ""
  },
  {
   "property": "C32",
   "status": "proved",
   "theorems": [
    "C32_bulk_insert",
    "C32_bulk_insert_pairs"
   ],
   "note": ""
  },
  {
   "property": "C33",
   "status": "proved",
   "theorems": [
    "C33_size",
    "C33_size_counts_documents_refuted"
   ],
   "note": "refuted theorem: size() is not the number of documents"
  },
  {
   "property": "C34",
   "status": "proved",
   "theorems": [
    "C34_blocks",
    "C34_create",
    "C34_create_fails"
   ],
   "note": "failure of construction is modelled as a panic (overflow checks on)"
  },
  {
   "property": "C35",
   "status": "proved",
   "theorems": [
    "C35_permute"
   ],
   "note": ""
  },
  {
   "property": "C36",
   "status": "proved",
   "theorems": [
    "C36_signature",
    "C36_order",
    "C36_repeat",
    "C36_empty",
    "C36_single",
    "C36_too_wide",
    "C36_set_semantics_refuted"
   ],
   "note": "counters assumed not to overflow"
  },
  {
   "property": "C37",
   "status": "proved",
   "theorems": [
    "C37_centroid",
    "C37_too_wide"
   ],
   "note": ""
  },
  {
   "property": "C38",
   "status": "proved",
   "theorems": [
    "C38_angle_error",
    "C38_metric",
    "C38_angle"
   ],
   "note": "metric for every width; angle for 64 and 128 bits, by computing all distances"
  },
  {
   "property": "C39",
   "status": "proved",
   "theorems": [
    "C39_whitespace_split",
    "C39_content",
    "C39_additive"
   ],
   "note": ""
  },
  {
   "property": "C40",
   "status": "proved",
   "theorems": [
    "C40_slice_shingles",
    "C40_windows",
    "C40_all_windows_refuted"
   ],
   "note": "refuted theorem: not every window of the range is produced"
  },
  {
   "property": "C41",
   "status": "proved",
   "theorems": [
    "C41_str_shingles",
    "C41_never_panics",
    "C41_fused_refuted"
   ],
   "note": "refuted theorem: the string iterator is not fused"
  },
  {
   "property": "C42",
   "status": "proved",
   "theorems": [
    "C42_slice_zero",
    "C42_str_zero_diverges",
    "C42_str_from_zero",
    "C42_inverted",
    "C42_str_inverted"
   ],
   "note": ""
  },
  {
   "property": "C43",
   "status": "proved",
   "theorems": [
    "C43_serial_clusters",
    "C43_minhash_index",
    "C43_min_cluster_size_refuted"
   ],
   "note": ""
  },
  {
   "property": "C44",
   "status": "proved",
   "theorems": [
    "C44_serial_maximal"
   ],
   "note": ""
  },
  {
   "property": "C45",
   "status": "proved",
   "theorems": [
    "C45_serial_ids",
    "C45_ids_reused_refuted"
   ],
   "note": ""
  },
  {
   "property": "C46",
   "status": "proved",
   "theorems": [
    "C46_single_thread",
    "C46_order"
   ],
   "note": "the sequentially consistent step machine, one thread"
  },
  {
   "property": "C47",
   "status": "proved",
   "theorems": [
    "C47_interleavings",
    "C47_undersized_refuted"
   ],
   "note": "sequentially consistent interleavings, no address reuse; refuted theorem: a returned cluster can be smaller than min_cluster_size"
  },
  {
   "property": "C48",
   "status": "proved",
   "theorems": [
    "C48_disjoint_refuted",
    "C48_unassigned_refuted",
    "C48_use_after_free_refuted",
    "C48_retry_panics_refuted",
    "C48_gives_up_refuted"
   ],
   "note": "the property is the existence of the failing interleavings; each theorem gives one"
  },
  {
   "property": "C49",
   "status": "proved",
   "theorems": [
    "C49_panics",
    "C49_chunks"
   ],
   "note": ""
  },
  {
   "property": "C50",
   "status": "proved",
   "theorems": [
    "C50_query",
    "C50_size",
    "C50_outputs"
   ],
   "note": ""
  },
  {
   "property": "C51",
   "status": "proved",
   "theorems": [
    "C51_exact",
    "C51_retrievable",
    "C51_serial_or_parallel_only",
    "C51_parallel_after_insert_refuted"
   ],
   "note": ""
  },
  {
   "property": "C52",
   "status": "proved",
   "theorems": [
    "C52_minhash_docs",
    "C52_minhash_tokens",
    "C52_minhash_found",
    "C52_class",
    "C52_simhash_docs",
    "C52_simhash_tokens"
   ],
   "note": "tokenizer crate, to_lowercase and hashing are arguments"
  },
  {
   "property": "C53",
   "status": "proved",
   "theorems": [
    "C53_lengths",
    "C53_raises",
    "C53_no_range_never_raises",
    "C53_queries",
    "C53_native_constructor",
    "C53_class_constructor",
    "C53_nan_threshold",
    "C53_nan_threshold_empty",
    "C53_num_hashes_ignored",
    "C53_similarity_refuted"
   ],
   "note": "refuted theorem: a similarity query can panic on an index whose plain queries never do"
  },
  {
   "property": "C54",
   "status": "proved",
   "theorems": [
    "C54_attribute_errors",
    "C54_working_calls",
    "C54_constructor",
    "C54_num_blocks_check"
   ],
   "note": ""
  },
  {
   "property": "C55",
   "status": "proved",
   "theorems": [
    "C55_jaccard",
    "C55_symmetric",
    "C55_set_semantics",
    "C55_nan"
   ],
   "note": ""
  },
  {
   "property": "C56",
   "status": "proved",
   "theorems": [
    "C56_wait_free"
   ],
   "note": "steps of the sequentially consistent step machine"
  },
  {
   "property": "C57",
   "status": "proved",
   "theorems": [
    "C57_size",
    "C57_sound",
    "C57_exact",
    "C57_similarity",
    "C57_bulk",
    "C57_tokens",
    "C57_tokens_similarity",
    "C57_class_raises",
    "C57_class_size",
    "C57_class_exact",
    "C57_class_similarity",
    "C57_class_sound",
    "C57_class_bulk"
   ],
   "note": "exact answers under the no-reinsertion hypothesis also needed by C05"
  },
  {
   "property": "C58",
   "status": "proved",
   "theorems": [
    "C58_raises",
    "C58_exact",
    "C58_found",
    "C58_distance",
    "C58_bulk",
    "C58_tokens",
    "C58_tokens_distance",
    "C58_class"
   ],
   "note": ""
  },
  {
   "property": "C59",
   "status": "proved",
   "theorems": [
    "C59_tokens",
    "C59_single_size",
    "C59_inverted",
    "C59_char_zero",
    "C59_all_ngrams_refuted"
   ],
   "note": ""
  },
  {
   "property": "C60",
   "status": "proved",
   "theorems": [
    "C60_one",
    "C60_union",
    "C60_set",
    "C60_empty",
    "C60_permutation_refuted"
   ],
   "note": ""
  },
  {
   "property": "C61",
   "status": "proved",
   "theorems": [
    "C61_panic",
    "C61_empty",
    "C61_one",
    "C61_first",
    "C61_two",
    "C61_two_first",
    "C61_bound",
    "C61_decrease",
    "C61_origin",
    "C61_order_refuted",
    "C61_duplicate_refuted",
    "C61_minimum_refuted"
   ],
   "note": ""
  },
  {
   "property": "C62",
   "status": "proved",
   "theorems": [
    "C62_fair",
    "C62_even",
    "C62_universal_refuted"
   ],
   "note": ""
  },
  {
   "property": "C63",
   "status": "proved",
   "theorems": [
    "C63_sha_value",
    "C63_writes",
    "C63_sha_collide",
    "C63_sha_continue",
    "C63_high_bits"
   ],
   "note": ""
  },
  {
   "property": "C64",
   "status": "proved",
   "theorems": [
    "C64_finishes",
    "C64_as_alone",
    "C64_clusters",
    "C64_no_sharing"
   ],
   "note": ""
  },
  {
   "property": "C65",
   "status": "proved",
   "theorems": [
    "C65_conflict_races",
    "C65_only_conflicts",
    "C65_single",
    "C65_separated",
    "C65_race_free_refuted"
   ],
   "note": ""
  },
  {
   "property": "C66",
   "status": "proved",
   "theorems": [
    "C66_at_least",
    "C66_at_most",
    "C66_exact",
    "C66_mean",
    "C66_bias",
    "C66_unbiased_refuted"
   ],
   "note": ""
  },
  {
   "property": "C67",
   "status": "proved",
   "theorems": [
    "C67_at_most_half",
    "C67_unrelated",
    "C67_unrelated_refuted"
   ],
   "note": ""
  },
  {
   "property": "C68",
   "status": "proved",
   "theorems": [
    "C68_serial",
    "C68_all_assigned",
    "C68_duplicates",
    "C68_representatives",
    "C68_parallel",
    "C68_duplicates_refuted"
   ],
   "note": ""
  },
  {
   "property": "C69",
   "status": "proved",
   "theorems": [
    "C69_binomial",
    "C69_mean",
    "C69_variance",
    "C69_deviation",
    "C69_tail_above",
    "C69_tail_below"
   ],
   "note": ""
  },
  {
   "property": "C70",
   "status": "proved",
   "theorems": [
    "C70_at_least",
    "C70_at_most",
    "C70_exact",
    "C70_threshold_refuted"
   ],
   "note": ""
  },
  {
   "property": "C71",
   "status": "proved",
   "theorems": [
    "C71_at_least",
    "C71_at_most",
    "C71_exact",
    "C71_mean",
    "C71_collide",
    "C71_saturated",
    "C71_disjoint",
    "C71_unbiased_refuted"
   ],
   "note": ""
  },
  {
   "property": "C72",
   "status": "proved",
   "theorems": [
    "C72_lines",
    "C72_utf8",
    "C72_every_file",
    "C72_ends",
    "C72_round_trip",
    "C72_load",
    "C72_serial",
    "C72_parallel",
    "C72_endless",
    "C72_lossy_refuted",
    "C72_only_whole_lines_refuted"
   ],
   "note": ""
  },
  {
   "property": "C73",
   "status": "proved",
   "theorems": [
    "C73_sequential",
    "C73_coherent",
    "C73_executions",
    "C73_wait_free",
    "C73_race_free",
    "C73_separated",
    "C73_single",
    "C73_one_after_the_other_refuted"
   ],
   "note": ""
  },
  {
   "property": "C74",
   "status": "proved",
   "theorems": [
    "C74_value",
    "C74_ending",
    "C74_ending_32",
    "C74_window",
    "C74_window_32",
    "C74_short",
    "C74_short_32",
    "C74_same_hash",
    "C74_short_32_refuted",
    "C74_collision_refuted"
   ],
   "note": ""
  },
  {
   "property": "C75",
   "status": "proved",
   "theorems": [
    "C75_reaches",
    "C75_widest",
    "C75_documented",
    "C75_recall",
    "C75_threshold_refuted",
    "C75_width_one_refuted"
   ],
   "note": ""
  },
  {
   "property": "C76",
   "status": "proved",
   "theorems": [
    "C76_binomial",
    "C76_mean",
    "C76_variance",
    "C76_deviation",
    "C76_tail_above",
    "C76_tail_below",
    "C76_half",
    "C76_one_more",
    "C76_recall"
   ],
   "note": ""
  },
  {
   "property": "C77",
   "status": "proved",
   "theorems": [
    "C77_scan",
    "C77_threshold",
    "C77_query_one",
    "C77_width_one",
    "C77_at_bound_refuted",
    "C77_test_remove",
    "C77_test_duplicate_ids",
    "C77_test_centroids"
   ],
   "note": ""
  },
  {
   "property": "C78",
   "status": "proved",
   "theorems": [
    "C78_stream",
    "C78_uniform",
    "C78_gen_index",
    "C78_draw",
    "C78_unit",
    "C78_unit_fair",
    "C78_shuffle",
    "C78_orders",
    "C78_coefficients",
    "C78_coefficients_stream",
    "C78_prefix",
    "C78_prefix_refuted",
    "C78_super",
    "C78_super1",
    "C78_super2",
    "C78_super_fuel",
    "C78_order_refuted"
   ],
   "note": ""
  },
  {
   "property": "C79",
   "status": "proved",
   "theorems": [
    "C79_example",
    "C79_lsh_index",
    "C79_batch_construction",
    "C79_duplicate_ids",
    "C79_query_one",
    "C79_remove",
    "C79_estimates",
    "C79_string_index"
   ],
   "note": ""
  },
  {
   "property": "C80",
   "status": "proved",
   "theorems": [
    "C80_sha1",
    "C80_sha_hasher",
    "C80_sip",
    "C80_sip128",
    "C80_sip_hashers",
    "C80_test_basics",
    "C80_test_basics128"
   ],
   "note": ""
  },
  {
   "property": "C81",
   "status": "proved",
   "theorems": [
    "C81_simhash_index",
    "C81_simhash_index_count"
   ],
   "note": ""
  },
  {
   "property": "C82",
   "status": "proved",
   "theorems": [
    "C82_64bit",
    "C82_min_hash",
    "C82_custom_analyzer",
    "C82_documents",
    "C82_return_similarity"
   ],
   "note": ""
  },
  {
   "property": "C83",
   "status": "proved",
   "theorems": [
    "C83_batch_construction2",
    "C83_passes",
    "C83_always_passes_refuted",
    "C83_bytes"
   ],
   "note": ""
  },
  {
   "property": "C84",
   "status": "proved",
   "theorems": [
    "C84_python",
    "C84_same",
    "C84_new",
    "C84_reported_refuted"
   ],
   "note": ""
  },
  {
   "property": "C85",
   "status": "proved",
   "theorems": [
    "C85_same",
    "C85_insert",
    "C85_bulk",
    "C85_removals",
    "C85_queries",
    "C85_caught_refuted"
   ],
   "note": ""
  },
  {
   "property": "C86",
   "status": "proved",
   "theorems": [
    "C86_has_ids",
    "C86_filter",
    "C86_filter_refuted",
    "C86_avg_bucket_count",
    "C86_avg_rounded_refuted"
   ],
   "note": "refuted theorems: the filter keeps the similar candidates; avg_bucket_count is the mean bucket size rounded down"
  },
  {
   "property": "C87",
   "status": "proved",
   "theorems": [
    "C87_text",
    "C87_same_text",
    "C87_python",
    "C87_python_refuted"
   ],
   "note": "Display of f64 and type_name are arguments; refuted theorem: the text shows all that decides the answers"
  },
  {
   "property": "C88",
   "status": "proved",
   "theorems": [
    "C88_checked",
    "C88_unchecked",
    "C88_unusable",
    "C88_with_capacity",
    "C88_band_capacity",
    "C88_tenth_refuted"
   ],
   "note": "whether a capacity can be reserved is an argument; refuted theorem: ratio 0.9 gives each band a tenth"
  },
  {
   "property": "C89",
   "status": "proved",
   "theorems": [
    "C89_no_stale_reuse",
    "C89_every_schedule",
    "C89_separate",
    "C89_any_reuse",
    "C89_dangling",
    "C89_reuse_refuted",
    "C89_panic_dangling_refuted"
   ],
   "note": "steps are interleaved as in C46-C48; a pointer to a freed address reads what is there now; refuted theorems: reuse of an address still in use destroys an unrelated cluster, after a panic pointers to freed boxes stay"
  },
  {
   "property": "C90",
   "status": "proved",
   "theorems": [
    "C90_rows",
    "C90_mutual",
    "C90_copies",
    "C90_notebook",
    "C90_remove",
    "C90_recall",
    "C90_precision",
    "C90_correct",
    "C90_perfect_precision_refuted",
    "C90_duplicate_ids_refuted",
    "C90_threshold"
   ],
   "note": "the means over the rows and the rounding of the printed accuracy are not modelled; refuted theorems: repeated ids make list.remove raise, a perfect prediction has precision 1"
  },
  {
   "property": "C91",
   "status": "proved",
   "theorems": [
    "C91_minhash",
    "C91_empty",
    "C91_simhash",
    "C91_scan_refuted",
    "C91_threshold"
   ],
   "note": "one iteration of each closure; refuted theorem: the simhash scan finds the most similar item"
  },
  {
   "property": "C92",
   "status": "proved",
   "theorems": [
    "C92_accepted",
    "C92_rejected",
    "C92_unchanged",
    "C92_typed",
    "C92_history",
    "C92_named",
    "C92_native",
    "C92_query",
    "C92_bulk_query",
    "C92_bad_query",
    "C92_bad_bulk_query",
    "C92_new",
    "C92_new_rejected",
    "C92_new_class",
    "C92_one_by_one_refuted",
    "C92_same_documents_refuted"
   ],
   "note": "pyo3 conversions are modelled, not proved; analyzers are functions of their argument; refuted theorems: bulk insertion with a bad id equals one-by-one insertion, named and callable analyzers accept the same documents"
  },
  {
   "property": "C93",
   "status": "proved",
   "theorems": [
    "C93_position",
    "C93_exact",
    "C93_count",
    "C93_few",
    "C93_documents",
    "C93_universal_refuted"
   ],
   "note": ""
  },
  {
   "property": "C94",
   "status": "proved",
   "theorems": [
    "C94_accepted",
    "C94_rejected",
    "C94_unchanged",
    "C94_native",
    "C94_query",
    "C94_callable_query",
    "C94_distance",
    "C94_callable_bulk",
    "C94_direct",
    "C94_direct_bad",
    "C94_typed",
    "C94_new",
    "C94_new_fails",
    "C94_new_class",
    "C94_callable_bulk_refuted"
   ],
   "note": ""
  },
  {
   "property": "C95",
   "status": "proved",
   "theorems": [
    "C95_owner",
    "C95_other",
    "C95_history",
    "C95_query",
    "C95_query_other",
    "C95_sim_insert",
    "C95_sim_history",
    "C95_sim_query",
    "C95_sim_query_other",
    "C95_any_thread_refuted"
   ],
   "note": ""
  },
  {
   "property": "C96",
   "status": "proved",
   "theorems": [
    "C96_exact",
    "C96_buckets",
    "C96_alone",
    "C96_reorder",
    "C96_set_below_vec",
    "C96_bulk_remove_alone_refuted",
    "C96_vec_below_set_refuted"
   ],
   "note": ""
  },
  {
   "property": "C97",
   "status": "proved",
   "theorems": [
    "C97_serial",
    "C97_serial_order",
    "C97_single_thread",
    "C97_parallel",
    "C97_duplicates",
    "C97_duplicates_parallel",
    "C97_order_refuted",
    "C97_spread_refuted",
    "C97_split_refuted"
   ],
   "note": ""
  },
  {
   "property": "C98",
   "status": "proved",
   "theorems": [
    "C98_v1",
    "C98_v2",
    "C98_tests",
    "C98_tests_reject",
    "C98_exact",
    "C98_similarity_v1",
    "C98_same_v1",
    "C98_similarity_v2",
    "C98_zero_v2",
    "C98_single_v2",
    "C98_second_v2",
    "C98_order_v2_refuted",
    "C98_bulk"
   ],
   "note": ""
  },
  {
   "property": "C99",
   "status": "proved",
   "theorems": [
    "C99_similarity_panics",
    "C99_top_k_panics",
    "C99_similarity",
    "C99_top_k",
    "C99_bulk",
    "C99_query_one",
    "C99_no_removal",
    "C99_same_again",
    "C99_same_again_query",
    "C99_ghost_alone",
    "C99_clear",
    "C99_same_again_vec_refuted",
    "C99_exorcism_refuted"
   ],
   "note": ""
  },
  {
   "property": "C100",
   "status": "proved",
   "theorems": [
    "C100_exact",
    "C100_attained",
    "C100_fresh",
    "C100_poisoned",
    "C100_retry",
    "C100_retry_vec_refuted",
    "C100_fresh_stored_refuted"
   ],
   "note": ""
  },
  {
   "property": "C101",
   "status": "proved",
   "theorems": [
    "C101_count",
    "C101_keys",
    "C101_band_sizes",
    "C101_query",
    "C101_similarity_panics",
    "C101_vec_forever",
    "C101_set_exorcism",
    "C101_py_query",
    "C101_py_query_tokens",
    "C101_py_raises",
    "C101_py_raises_tokens",
    "C101_py_overwritten",
    "C101_vec_exorcism_refuted",
    "C101_emptied_refuted"
   ],
   "note": ""
  },
  {
   "property": "C102",
   "status": "proved",
   "theorems": [
    "C102_low_bits",
    "C102_exact",
    "C102_parity",
    "C102_case",
    "C102_case_collisions",
    "C102_case_documents",
    "C102_even_changes_refuted"
   ],
   "note": ""
  },
  {
   "property": "C103",
   "status": "proved",
   "theorems": [
    "C103_value",
    "C103_readable",
    "C103_window",
    "C103_window_32",
    "C103_border",
    "C103_border_32",
    "C103_case",
    "C103_parity",
    "C103_never_text",
    "C103_word_and_token",
    "C103_py",
    "C103_collision_refuted"
   ],
   "note": ""
  },
  {
   "property": "C104",
   "status": "proved",
   "theorems": [
    "C104_threshold",
    "C104_top_k",
    "C104_multiple",
    "C104_wider",
    "C104_width",
    "C104_width_clean",
    "C104_width_one",
    "C104_width_panics",
    "C104_width_only",
    "C104_simhash",
    "C104_simhash_one",
    "C104_py_threshold",
    "C104_py_width",
    "C104_width_set_refuted",
    "C104_width_bulk_remove_refuted",
    "C104_width_collision_refuted"
   ],
   "note": ""
  },
  {
   "property": "C105",
   "status": "proved",
   "theorems": [
    "C105_same",
    "C105_split",
    "C105_again",
    "C105_parallel_again",
    "C105_assigned",
    "C105_order",
    "C105_stricter",
    "C105_count",
    "C105_larger_refuted",
    "C105_parallel_larger_refuted"
   ],
   "note": ""
  },
  {
   "property": "C106",
   "status": "proved",
   "theorems": [
    "C106_exact",
    "C106_retrievable",
    "C106_lost",
    "C106_lossless",
    "C106_documents_decide_refuted"
   ],
   "note": ""
  },
  {
   "property": "C107",
   "status": "proved",
   "theorems": [
    "C107_bucket",
    "C107_entries",
    "C107_comparisons",
    "C107_contribution",
    "C107_again",
    "C107_all_queries",
    "C107_one_per_document_refuted"
   ],
   "note": ""
  },
  {
   "property": "C108",
   "status": "proved",
   "theorems": [
    "C108_visits",
    "C108_evaluations",
    "C108_clean",
    "C108_again",
    "C108_again_answers",
    "C108_stored_documents_refuted",
    "C108_removed_refuted"
   ],
   "note": ""
  },
  {
   "property": "C109",
   "status": "proved",
   "theorems": [
    "C109_attempts",
    "C109_counter",
    "C109_memory",
    "C109_no_leak",
    "C109_result",
    "C109_heap",
    "C109_consecutive_refuted"
   ],
   "note": ""
  },
  {
   "property": "C110",
   "status": "proved",
   "theorems": [
    "C110_unused",
    "C110_dropped",
    "C110_next_call",
    "C110_dangling_refuted",
    "C110_reuse_refuted"
   ],
   "note": ""
  },
  {
   "property": "C111",
   "status": "proved",
   "theorems": [
    "C111_never_returned"
   ],
   "note": ""
  },
  {
   "property": "C112",
   "status": "proved",
   "theorems": [
    "C112_start",
    "C112_step",
    "C112_panics",
    "C112_release"
   ],
   "note": ""
  }
 ]
}