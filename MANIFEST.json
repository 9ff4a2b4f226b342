{
 "claims": [
  {
   "property": "C01",
   "status": "proved",
   "theorems": [
    "C01_shuffle_is_permutation",
    "C01_shuffle_is_unbiased"
   ],
   "note": "All draws in the requested ranges. Draws are one per position."
  },
  {
   "property": "C02",
   "status": "proved",
   "theorems": [
    "C02_reservoir_distinct_lines",
    "C02_reservoir_small_file"
   ],
   "note": "Floating-point computation of the skip lengths is abstracted to arbitrary draws."
  },
  {
   "property": "C03",
   "status": "proved",
   "theorems": [
    "C03_merge_list_is_ordered_tree",
    "C03_merge_list_is_fold"
   ],
   "note": "Removal and restoring of the data labelers around the merge is not modelled."
  },
  {
   "property": "C04",
   "status": "proved",
   "theorems": [
    "C04_counts_are_occurrences",
    "C04_never_stops_without_thresholds",
    "C04_merge_succeeds",
    "C04_merge_of_other_column_fails"
   ],
   "note": "pandas value_counts is any function returning the exact counts in any key order. Full mode only (no count-min sketch)."
  },
  {
   "property": "C05",
   "status": "proved",
   "theorems": [
    "C05_stopped_is_permanent",
    "C05_stops_exactly_at_thresholds",
    "C05_merge_stops_exactly_at_thresholds"
   ],
   "note": "Ratios are exact rationals."
  },
  {
   "property": "C06",
   "status": "proved",
   "theorems": [
    "C06_merge_of_stopped",
    "C06_merge_of_stopped_reports_larger",
    "C06_merge_adds_sample_sizes_refuted"
   ],
   "note": "The user's expectation (sum of the sample sizes) is false of the code and refuted; what the code does is proved."
  },
  {
   "property": "C07",
   "status": "proved",
   "theorems": [
    "C07_gini",
    "C07_unalikeability"
   ],
   "note": "Exact rationals instead of floats."
  },
  {
   "property": "C08",
   "status": "proved",
   "theorems": [
    "C08_minimum",
    "C08_maximum",
    "C08_minimum_exact",
    "C08_maximum_exact",
    "C08_single_batch_exact",
    "C08_streaming_minimum_refuted",
    "C08_streaming_maximum_refuted"
   ],
   "note": "Finite values as rationals. The unrestricted expectation is refuted; the exact exception is proved."
  },
  {
   "property": "C09",
   "status": "proved",
   "theorems": [
    "C09_merged_extrema",
    "C09_merge_commutative_associative"
   ],
   "note": "Finite values as rationals."
  },
  {
   "property": "C10",
   "status": "proved",
   "theorems": [
    "C10_sum_mean",
    "C10_variance"
   ],
   "note": "Exact rationals instead of floats, finite values, all statistics enabled."
  },
  {
   "property": "C11",
   "status": "proved",
   "theorems": [
    "C11_skewness",
    "C11_kurtosis",
    "C11_constant_kurtosis_refuted",
    "C11_small_values_refuted"
   ],
   "note": "Real numbers instead of floats: the axioms of the standard library's real numbers (sig_forall_dec, sig_not_dec, functional_extensionality_dep) are used. Finite values."
  },
  {
   "property": "C12",
   "status": "proved",
   "theorems": [
    "C12_precision",
    "C12_precision_variance_by_merging",
    "C12_precision_variance_of_two_updates",
    "C12_streamed_precision_variance_refuted"
   ],
   "note": "The streamed variance is wrong (refuted) and its formula for two batches is proved. Rounding to significant figures in the report is not modelled."
  },
  {
   "property": "C13",
   "status": "proved",
   "theorems": [
    "C13_rebinning_conserves",
    "C13_merging_conserves",
    "C13_rebinning_local",
    "C13_merging_local"
   ],
   "note": "Exact rational edges. Beyond the total, mass stays in the bins its source bin overlaps. The loss values are not modelled."
  },
  {
   "property": "C14",
   "status": "proved",
   "theorems": [
    "C14_merge_with_empty_drops_histogram",
    "C14_empty_is_neutral_refuted",
    "C14_update_after_merge_with_empty",
    "C14_other_statistics_unchanged"
   ],
   "note": "The expectation is refuted for the histogram; the rest is proved unchanged."
  },
  {
   "property": "C15",
   "status": "proved",
   "theorems": [
    "C15_percentile_in_range",
    "C15_percentile_monotone",
    "C15_percentile_in_right_bin",
    "C15_quantiles_monotone",
    "C15_percentile_monotone_everywhere_refuted"
   ],
   "note": "Exact rationals, total at most 10^15. Within 2e-8 of 50 percent (other than 50 itself) monotonicity is false and refuted."
  },
  {
   "property": "C16",
   "status": "proved",
   "theorems": [
    "C16_single_batch",
    "C16_answers_exclusive"
   ],
   "note": "Numbers and text are arbitrary total orders; NaN does not reach the profile."
  },
  {
   "property": "C17",
   "status": "proved",
   "theorems": [
    "C17_order_of_history",
    "C17_constant_iff",
    "C17_contradiction_is_random",
    "C17_random_is_permanent",
    "C17_merge_commutative",
    "C17_empty_is_neutral",
    "C17_sample_size",
    "C17_sorted_data_recognised",
    "C17_two_batches",
    "C17_constant_after_batch",
    "C17_range_encloses",
    "C17_values_of_one_kind",
    "C17_ascending_means_sorted_refuted",
    "C17_constant_means_one_value_refuted",
    "C17_merge_associative_refuted",
    "C17_mirror_refuted"
   ],
   "note": "Four expectations of users are refuted."
  },
  {
   "property": "C18",
   "status": "proved",
   "theorems": [
    "C18_check_passes_iff",
    "C18_pairing_is_bijection",
    "C18_merge_of_empty_fails",
    "C18_columns_receive_their_data",
    "C18_update_outcome",
    "C18_first_batch_accepted",
    "C18_merge_outcome",
    "C18_null_values_in_fixed_order",
    "C18_update_atomic_refuted",
    "C18_null_values_follow_column_refuted",
    "C18_own_null_values_kept_refuted"
   ],
   "note": "Names of any type with an idempotent lower; a column profile is reduced to its name and the batches it is given. Row sampling and the process pool are not part of this model."
  },
  {
   "property": "C19",
   "status": "proved",
   "theorems": [
    "C19_positions_never_collide",
    "C19_as_many_positions_as_nulls",
    "C19_positions_in_range",
    "C19_negative_labels_refuted"
   ],
   "note": "Cells, null pattern and set order are arbitrary."
  },
  {
   "property": "C20",
   "status": "proved",
   "theorems": [
    "C20_batch",
    "C20_all_rows_examined",
    "C20_update_succeeds",
    "C20_merge_with_empty_fails",
    "C20_null_ratio_of_last",
    "C20_repeated_labels_refuted",
    "C20_null_ratio_is_overall_refuted"
   ],
   "note": "Sampling order is arbitrary; the null pattern is an arbitrary predicate on cells."
  },
  {
   "property": "C21",
   "status": "proved",
   "theorems": [
    "C21_full",
    "C21_distinct_rows",
    "C21_independent_of_batching",
    "C21_sketch",
    "C21_sketch_of_a_set",
    "C21_disabled",
    "C21_columns_may_be_permuted_refuted"
   ],
   "note": "Hash, registers, ranks and the cardinality estimator are arbitrary functions. Profiles are objects on a heap; programs are arbitrary sequences of create, update and merge."
  },
  {
   "property": "C22",
   "status": "proved",
   "theorems": [
    "C22_correlation",
    "C22_blank",
    "C22_constant_batch_refuted",
    "C22_text_column_refuted",
    "C22_uncorrected_refuted",
    "C22_nulls_refuted",
    "C22_column_order_refuted"
   ],
   "note": "Real numbers instead of floats: the axioms of the standard library's real numbers are used. Tables with a fixed number of columns, all rows profiled."
  },
  {
   "property": "C23",
   "status": "proved",
   "theorems": [
    "C23_profiles",
    "C23_schedules",
    "C23_table",
    "C23_pool",
    "C23_processes",
    "C23_null_replication_refuted",
    "C23_memory_refuted",
    "C23_processors_refuted"
   ],
   "note": "Whether a column's base statistics fail is assumed not to depend on its profile; updates are functions of profile and data."
  },
  {
   "property": "C24",
   "status": "proved",
   "theorems": [
    "C24_numbers",
    "C24_numbers_swap",
    "C24_missing",
    "C24_strings",
    "C24_bools",
    "C24_bool_numbers",
    "C24_dates",
    "C24_self_unchanged_refuted"
   ],
   "note": "Printing of dates is not modelled. NaN differs from itself (refuted)."
  },
  {
   "property": "C25",
   "status": "proved",
   "theorems": [
    "C25_lists",
    "C25_lists_unchanged",
    "C25_sets",
    "C25_dict_entries",
    "C25_dict_unchanged",
    "C25_dict_succeeds",
    "C25_dict_self",
    "C25_parts",
    "C25_parts_unchanged",
    "C25_matrices",
    "C25_list_unchanged_is_equal_refuted",
    "C25_missing_key_unchanged_refuted",
    "C25_dict_symmetric_refuted"
   ],
   "note": ""
  },
  {
   "property": "C26",
   "status": "proved",
   "theorems": [
    "C26_new",
    "C26_save",
    "C26_unknown_method",
    "C26_unknown_load",
    "C26_attributes",
    "C26_same",
    "C26_again",
    "C26_report",
    "C26_no_labeler",
    "C26_save_columns",
    "C26_graph",
    "C26_correlation_refuted",
    "C26_metrics_refuted",
    "C26_ratio_refuted",
    "C26_labeler_refuted",
    "C26_failed_save_refuted",
    "C26_empty_text_refuted",
    "C26_method_refuted",
    "C26_class_refuted",
    "C26_graph_refuted"
   ],
   "note": "Pickle is assumed to load equal values; loading a labeler from disk and reading JSON files are arbitrary functions."
  },
  {
   "property": "C27",
   "status": "proved",
   "theorems": [
    "C27_full_no_interference",
    "C27_sketch_merge_changes_left",
    "C27_merge_keeps_operands_refuted",
    "C27_unique_ratio_at_most_one_refuted",
    "C27_merged_profile_is_independent_refuted"
   ],
   "note": "The expectation is proved for the full mode and refuted for sketches. Only the row hash object is on the heap; other statistics are rebuilt by merging; the times, which merging changes in the first operand, are in C111."
  },
  {
   "property": "C28",
   "status": "proved",
   "theorems": [
    "C28_character_classes",
    "C28_split",
    "C28_strip",
    "C28_sample_size",
    "C28_characters",
    "C28_words",
    "C28_most_common",
    "C28_given_stop_words_refuted"
   ],
   "note": "Characters are ASCII."
  },
  {
   "property": "C29",
   "status": "proved",
   "theorems": [
    "C29_counts",
    "C29_settings",
    "C29_no_stop_words",
    "C29_commutative",
    "C29_lower_case",
    "C29_no_stop_words_refuted",
    "C29_commutative_refuted"
   ],
   "note": "Names and times of the profiles are not modelled."
  },
  {
   "property": "C30",
   "status": "proved",
   "theorems": [
    "C30_spans",
    "C30_succeeds"
   ],
   "note": ""
  },
  {
   "property": "C31",
   "status": "proved",
   "theorems": [
    "C31_inputs",
    "C31_round_trip",
    "C31_labels",
    "C31_batches",
    "C31_label_row",
    "C31_long_separator_refused",
    "C31_labels_empty_separator_refuted"
   ],
   "note": "Characters, labels and predictions are of arbitrary types, flatten_split is an exact number. The label rows are refuted for an empty separator."
  },
  {
   "property": "C32",
   "status": "proved",
   "theorems": [
    "C32_predicted_characters",
    "C32_characters",
    "C32_words",
    "C32_percentages",
    "C32_succeeds",
    "C32_single_word_refuted",
    "C32_words_around_entity_refuted"
   ],
   "note": "For entity spans that are in order, disjoint and inside the text."
  },
  {
   "property": "C33",
   "status": "proved",
   "theorems": [
    "C33_values",
    "C33_sorted",
    "C33_all",
    "C33_floats",
    "C33_rounding_refuted",
    "C33_few_quantiles_refuted"
   ],
   "note": "Double precision numbers of the standard library (SpecFloat), without axioms."
  },
  {
   "property": "C34",
   "status": "proved",
   "theorems": [
    "C34_rows",
    "C34_nothing_lost",
    "C34_document",
    "C34_payload",
    "C34_records_stay_together_refuted"
   ],
   "note": "Key order of the data frame and its value types are not modelled."
  },
  {
   "property": "C35",
   "status": "proved",
   "theorems": [
    "C35_find",
    "C35_find_nothing",
    "C35_load",
    "C35_load_all",
    "C35_limit",
    "C35_limit_refuted",
    "C35_whole_file_refuted",
    "C35_chunk_size_refuted",
    "C35_consecutive_refuted"
   ],
   "note": "Files are lists of decoded characters; limits in bytes count characters, as the code does for text."
  },
  {
   "property": "C36",
   "status": "proved",
   "theorems": [
    "C36_text_chunks",
    "C36_not_text_is_an_error"
   ],
   "note": ""
  },
  {
   "property": "C37",
   "status": "proved",
   "theorems": [
    "C37_batches_cover_each_row_once",
    "C37_partition"
   ],
   "note": ""
  },
  {
   "property": "C38",
   "status": "proved",
   "theorems": [
    "C38_total",
    "C38_votes",
    "C38_representation",
    "C38_label",
    "C38_added",
    "C38_merge_refuted",
    "C38_no_votes_refuted",
    "C38_order_refuted",
    "C38_gap_refuted",
    "C38_rounding_refuted"
   ],
   "note": "The best label of a cell is given by an arbitrary function that finds a largest confidence; confidences are exact."
  },
  {
   "property": "C39",
   "status": "proved",
   "theorems": [
    "C39_selected",
    "C39_recognised",
    "C39_always",
    "C39_shares",
    "C39_reported",
    "C39_options",
    "C39_string_refuted",
    "C39_batching_refuted"
   ],
   "note": "What is a number or a date is given by arbitrary predicates."
  },
  {
   "property": "C40",
   "status": "proved",
   "theorems": [
    "C40_flat",
    "C40_keys",
    "C40_lost_refuted",
    "C40_zero_refuted",
    "C40_empty_refuted"
   ],
   "note": "Keys are strings and integers."
  },
  {
   "property": "C41",
   "status": "proved",
   "theorems": [
    "C41_priors",
    "C41_sums",
    "C41_default_labels",
    "C41_labels_refuted",
    "C41_text_refuted",
    "C41_order_refuted",
    "C41_place_refuted",
    "C41_date_refuted",
    "C41_lost_refuted",
    "C41_correlation_refuted",
    "C41_correlation_numbers",
    "C41_correlation_fails"
   ],
   "note": "All rows profiled; exact numbers."
  },
  {
   "property": "C42",
   "status": "proved",
   "theorems": [
    "C42_votes",
    "C42_confidences",
    "C42_succeeds",
    "C42_one_prediction_per_text_refuted",
    "C42_background_is_exclusive_refuted"
   ],
   "note": "The regex engine is an arbitrary function from patterns and texts to spans."
  },
  {
   "property": "C43",
   "status": "proved",
   "theorems": [
    "C43_numbers_kept",
    "C43_added",
    "C43_accepted",
    "C43_num_labels",
    "C43_labels",
    "C43_consecutive",
    "C43_every_label_listed_refuted"
   ],
   "note": ""
  },
  {
   "property": "C44",
   "status": "proved",
   "theorems": [
    "C44_matrix",
    "C44_matrix_exists",
    "C44_counts",
    "C44_scores",
    "C44_scores_exist",
    "C44_accuracy",
    "C44_weighted_recall",
    "C44_score",
    "C44_same_positions_refuted",
    "C44_perfect_predictions_refuted",
    "C44_score_at_most_one_refuted"
   ],
   "note": "Exact rationals. The printed report is not modelled."
  },
  {
   "property": "C45",
   "status": "proved",
   "theorems": [
    "C45_component_all_or_nothing",
    "C45_success",
    "C45_malformed_request",
    "C45_single_component",
    "C45_warnings",
    "C45_failed_call_changes_nothing_refuted",
    "C45_valid_parameters_accepted_refuted"
   ],
   "note": "The expectation that a failing call changes nothing is refuted; what holds is proved."
  },
  {
   "property": "C46",
   "status": "proved",
   "theorems": [
    "C46_other",
    "C46_buffer",
    "C46_path",
    "C46_unopenable",
    "C46_used_again_refuted",
    "C46_position_refuted",
    "C46_failure_cleans_up_refuted"
   ],
   "note": "Bodies that close the stream are not modelled."
  },
  {
   "property": "C47",
   "status": "proved",
   "theorems": [
    "C47_match_counts"
   ],
   "note": "The test whether a cell is of the type is arbitrary."
  },
  {
   "property": "C48",
   "status": "proved",
   "theorems": [
    "C48_size",
    "C48_monotone",
    "C48_given",
    "C48_merged"
   ],
   "note": "Exact products instead of floating point."
  },
  {
   "property": "C49",
   "status": "proved",
   "theorems": [
    "C49_defined",
    "C49_common",
    "C49_given",
    "C49_zero",
    "C49_symmetric",
    "C49_categories",
    "C49_identical_refuted",
    "C49_index_refuted",
    "C49_ranges_refuted",
    "C49_disjoint_refuted",
    "C49_categories_refuted",
    "C49_empty_refuted"
   ],
   "note": "Exact reals; histograms have at least one value."
  },
  {
   "property": "C50",
   "status": "proved",
   "theorems": [
    "C50_length",
    "C50_words",
    "C50_separators",
    "C50_last_word",
    "C50_one_word",
    "C50_last_character_refuted",
    "C50_unanimous_word_refuted"
   ],
   "note": "What happens to words and separators is proved; two expectations are refuted."
  },
  {
   "property": "C51",
   "status": "proved",
   "theorems": [
    "C51_lines",
    "C51_all_lines_refuted"
   ],
   "note": "The JSON parser is any partial function."
  },
  {
   "property": "C52",
   "status": "proved",
   "theorems": [
    "C52_priority",
    "C52_priority_succeeds",
    "C52_random",
    "C52_split",
    "C52_settings_stay_valid",
    "C52_order_required",
    "C52_chosen_label_has_vote_refuted",
    "C52_priority_has_an_order_refuted"
   ],
   "note": "The random order is an arbitrary permutation."
  },
  {
   "property": "C54",
   "status": "proved",
   "theorems": [
    "C54_top_categories"
   ],
   "note": ""
  },
  {
   "property": "C55",
   "status": "proved",
   "theorems": [
    "C55_merge_thresholds",
    "C55_merge_keeps_top_k_refuted",
    "C55_merge_keeps_thresholds_refuted"
   ],
   "note": "The expectation that options survive is refuted; the exact rule is proved."
  },
  {
   "property": "C57",
   "status": "proved",
   "theorems": [
    "C57_zeros_and_negatives"
   ],
   "note": ""
  },
  {
   "property": "C58",
   "status": "proved",
   "theorems": [
    "C58_histogram_total",
    "C58_within"
   ],
   "note": "np.histogram is any function whose counts add up (and whose edges enclose the values). Values are finite."
  },
  {
   "property": "C59",
   "status": "proved",
   "theorems": [
    "C59_percentiles_shift",
    "C59_median_shift_refuted"
   ],
   "note": "The unrestricted expectation is refuted."
  },
  {
   "property": "C60",
   "status": "proved",
   "theorems": [
    "C60_fold_splits_mass",
    "C60_mad_zero_in_first_bin",
    "C60_mad_mirror_refuted"
   ],
   "note": "The interpolation after the fold is C108."
  },
  {
   "property": "C61",
   "status": "proved",
   "theorems": [
    "C61_mode"
   ],
   "note": ""
  },
  {
   "property": "C62",
   "status": "proved",
   "theorems": [
    "C62_is_match"
   ],
   "note": ""
  },
  {
   "property": "C63",
   "status": "proved",
   "theorems": [
    "C63_rows_with_nulls",
    "C63_rows_with_nulls_min_true",
    "C63_counted_rows_unique",
    "C63_all_null_at_most_some_null",
    "C63_any_labels_refuted",
    "C63_ratio_of_counted_rows_refuted"
   ],
   "note": "Proved without a minimum of true samples; with one, proved when each batch has a row labelled 0 and refuted for arbitrary labels."
  },
  {
   "property": "C64",
   "status": "proved",
   "theorems": [
    "C64_label",
    "C64_no_label",
    "C64_confidence"
   ],
   "note": "The random choice is arbitrary among the candidates."
  },
  {
   "property": "C65",
   "status": "proved",
   "theorems": [
    "C65_cell",
    "C65_unanimous",
    "C65_unmatched_cell",
    "C65_unmatched_cell_is_default_refuted"
   ],
   "note": ""
  },
  {
   "property": "C53",
   "status": "proved",
   "theorems": [
    "C53_frequent_reported",
    "C53_reported_counts",
    "C53_exact",
    "C53_sample_size",
    "C53_succeeds",
    "C53_update_after_merge_refuted",
    "C53_associative_refuted",
    "C53_incompatible_sizes_refuted"
   ],
   "note": "The sketch of the library datasketches is modelled by its documented table of counts."
  },
  {
   "property": "C67",
   "status": "proved",
   "theorems": [
    "C67_text_lines",
    "C67_record_lines",
    "C67_one_line",
    "C67_whole_lines",
    "C67_no_records_refuted",
    "C67_all_text_refuted"
   ],
   "note": ""
  },
  {
   "property": "C68",
   "status": "proved",
   "theorems": [
    "C68_nested",
    "C68_values_kept_refuted",
    "C68_any_keys_refuted"
   ],
   "note": ""
  },
  {
   "property": "C69",
   "status": "proved",
   "theorems": [
    "C69_keys",
    "C69_succeeds",
    "C69_any_records_refuted"
   ],
   "note": ""
  },
  {
   "property": "C70",
   "status": "proved",
   "theorems": [
    "C70_omit",
    "C70_wildcards_refuted",
    "C70_dotted_name_refuted",
    "C70_caller_list_refuted"
   ],
   "note": "The formatting of values (rounding, shortening) is not modelled."
  },
  {
   "property": "C71",
   "status": "proved",
   "theorems": [
    "C71_dates",
    "C71_sound",
    "C71_all_dates",
    "C71_may_refuted",
    "C71_batching_refuted",
    "C71_sampling_refuted"
   ],
   "note": "Parsing a value with a format is an arbitrary function."
  },
  {
   "property": "C72",
   "status": "proved",
   "theorems": [
    "C72_merged",
    "C72_updates",
    "C72_several_refuted",
    "C72_encoding_refuted",
    "C72_empty_refuted"
   ],
   "note": ""
  },
  {
   "property": "C73",
   "status": "proved",
   "theorems": [
    "C73_test",
    "C73_homogeneous",
    "C73_symmetric",
    "C73_p_value",
    "C73_matrix",
    "C73_merge_refuted",
    "C73_constant_refuted"
   ],
   "note": "Exact numbers; the distribution function is a variable, of which the p-value theorems assume that it is between 0 and 1 and 0 at 0."
  },
  {
   "property": "C74",
   "status": "proved",
   "theorems": [
    "C74_defined",
    "C74_swap",
    "C74_degrees",
    "C74_units",
    "C74_p_value"
   ],
   "note": "Exact reals; the distribution function is a variable, of which the p-value theorem assumes that it is one half at 0 and between one half and 1 above."
  },
  {
   "property": "C75",
   "status": "proved",
   "theorems": [
    "C75_column_profile",
    "C75_compiler",
    "C75_options",
    "C75_column",
    "C75_reload",
    "C75_not_saved",
    "C75_column_nulls",
    "C75_flags",
    "C75_metrics",
    "C75_names_refuted",
    "C75_mixed_names_refuted",
    "C75_same_number_refuted",
    "C75_column_nulls_refuted",
    "C75_flags_refuted",
    "C75_class_refuted",
    "C75_metrics_refuted"
   ],
   "note": "json.dump and json.load are modelled on trees of values; str and int on integers are arbitrary inverse functions; numpy numbers are not told apart from Python's; labelers of the library are named by their place."
  },
  {
   "property": "C56",
   "status": "proved",
   "theorems": [
    "C56_report",
    "C56_times",
    "C56_again",
    "C56_flag",
    "C56_text",
    "C56_graph",
    "C56_disabled_refuted",
    "C56_enabled_refuted",
    "C56_words_refuted",
    "C56_pure_refuted"
   ],
   "note": "Values of the statistics are given; only the dictionaries of times are shared objects. NumericStatsMixin.report is not modelled: no column class uses it."
  },
  {
   "property": "C76",
   "status": "proved",
   "theorems": [
    "C76_one",
    "C76_order",
    "C76_full_name",
    "C76_star",
    "C76_single_unknown",
    "C76_ignored",
    "C76_overlap",
    "C76_defaults",
    "C76_presets",
    "C76_unknown_refuted",
    "C76_documented_refuted",
    "C76_every_refuted",
    "C76_error_refuted",
    "C76_existing_refuted",
    "C76_both_refuted"
   ],
   "note": "Values set are not themselves option objects; presets of plugins are not modelled."
  },
  {
   "property": "C77",
   "status": "proved",
   "theorems": [
    "C77_valid",
    "C77_dependencies",
    "C77_defaults",
    "C77_switch",
    "C77_rows_refuted",
    "C77_switches_refuted",
    "C77_cms_refuted"
   ],
   "note": "The classes of the option objects are those made by the constructors; warnings are left out."
  },
  {
   "property": "C78",
   "status": "proved",
   "theorems": [
    "C78_counts",
    "C78_component",
    "C78_connected",
    "C78_attributes",
    "C78_distributions",
    "C78_defined",
    "C78_empty",
    "C78_most_edges_refuted",
    "C78_missing_refuted",
    "C78_failed_refuted",
    "C78_large_refuted",
    "C78_again_refuted",
    "C78_moments_refuted"
   ],
   "note": "Fits, moments and histograms (scipy, numpy) are parameters; sets are listed in an arbitrary order."
  },
  {
   "property": "C79",
   "status": "proved",
   "theorems": [
    "C79_columns",
    "C79_match",
    "C79_match_ends",
    "C79_names",
    "C79_graph",
    "C79_profiled",
    "C79_names_refuted",
    "C79_text_refuted",
    "C79_ends_refuted",
    "C79_negative_refuted",
    "C79_last_refuted",
    "C79_plain_refuted",
    "C79_empty_refuted"
   ],
   "note": "Delimiters, quotes and header are known; float() is a parameter; networkx is modelled by lists."
  },
  {
   "property": "C80",
   "status": "proved",
   "theorems": [
    "C80_exact",
    "C80_defined",
    "C80_rejected",
    "C80_get",
    "C80_frames",
    "C80_rows_refuted",
    "C80_texts_refuted",
    "C80_stale_refuted",
    "C80_failed_refuted"
   ],
   "note": "Values are seen through float(); dask computes the same cells in order."
  },
  {
   "property": "C81",
   "status": "proved",
   "theorems": [
    "C81_predict",
    "C81_answers",
    "C81_case",
    "C81_valid",
    "C81_new",
    "C81_set",
    "C81_default_refuted",
    "C81_set_refuted",
    "C81_labels_refuted",
    "C81_entries_refuted",
    "C81_aligned_refuted",
    "C81_include_refuted"
   ],
   "note": "The scorer of rapidfuzz is a parameter; texts are ASCII."
  },
  {
   "property": "C66",
   "status": "proved",
   "theorems": [
    "C66_labels",
    "C66_single",
    "C66_spans",
    "C66_entities",
    "C66_last_refuted",
    "C66_pad_refuted"
   ],
   "note": "Samples are texts; characters are of any type."
  },
  {
   "property": "C82",
   "status": "proved",
   "theorems": [
    "C82_exact",
    "C82_empty",
    "C82_defaults",
    "C82_typical",
    "C82_wide",
    "C82_alike",
    "C82_words",
    "C82_wide_refuted",
    "C82_names_refuted",
    "C82_data_refuted"
   ],
   "note": "Default thresholds, delimiters of one character; what dateutil, float and isupper say of a cell are parameters."
  },
  {
   "property": "C83",
   "status": "proved",
   "theorems": [
    "C83_exact",
    "C83_same",
    "C83_table",
    "C83_few",
    "C83_single",
    "C83_given",
    "C83_other",
    "C83_guessed",
    "C83_trailing",
    "C83_long",
    "C83_blank_refuted",
    "C83_none_refuted",
    "C83_beginning_refuted",
    "C83_quote_refuted",
    "C83_small_refuted",
    "C83_tab_refuted",
    "C83_blanks_refuted"
   ],
   "note": "Delimiters of one character; whether a file is JSON, Parquet or AVRO is a parameter."
  },
  {
   "property": "C84",
   "status": "proved",
   "theorems": [
    "C84_join",
    "C84_fields",
    "C84_candidate",
    "C84_shape",
    "C84_accepted",
    "C84_best",
    "C84_none",
    "C84_rows",
    "C84_comma",
    "C84_random_refuted",
    "C84_late_refuted",
    "C84_blanks_refuted"
   ],
   "note": "csv.Sniffer, dateutil, float, isupper, isalpha and random.choices are parameters."
  },
  {
   "property": "C85",
   "status": "proved",
   "theorems": [
    "C85_arguments",
    "C85_first",
    "C85_given",
    "C85_unknown",
    "C85_data",
    "C85_always",
    "C85_kept",
    "C85_remote",
    "C85_s3",
    "C85_prefix",
    "C85_pop_refuted",
    "C85_stops_refuted"
   ],
   "note": "Tests and constructors of the classes, urllib and boto3 are parameters; options are dictionaries."
  },
  {
   "property": "C86",
   "status": "proved",
   "theorems": [
    "C86_exact",
    "C86_file",
    "C86_bad",
    "C86_table",
    "C86_reload",
    "C86_refuse",
    "C86_format",
    "C86_start",
    "C86_encoding",
    "C86_reload_refuted",
    "C86_zero_refuted",
    "C86_late_refuted",
    "C86_graph_refuted"
   ],
   "note": "Guessing of delimiter and header (C82, C84) are parameters; texts are ASCII."
  },
  {
   "property": "C87",
   "status": "proved",
   "theorems": [
    "C87_exact",
    "C87_size",
    "C87_equal_refuted",
    "C87_small_refuted"
   ],
   "note": "requests is a list of pieces; errors of the connection are left out."
  },
  {
   "property": "C88",
   "status": "proved",
   "theorems": [
    "C88_keys",
    "C88_entries",
    "C88_base",
    "C88_numeric",
    "C88_special",
    "C88_categories",
    "C88_psi",
    "C88_labels",
    "C88_representation",
    "C88_only",
    "C88_error",
    "C88_succeeds",
    "C88_self",
    "C88_global",
    "C88_columns",
    "C88_schema",
    "C88_table_succeeds",
    "C88_table_self",
    "C88_always_refuted",
    "C88_psi_refuted"
   ],
   "note": "Values of the profiles are given; t-test, chi-squared and psi are parameters (C49, C73, C74)."
  },
  {
   "property": "C89",
   "status": "proved",
   "theorems": [
    "C89_update",
    "C89_sample",
    "C89_small",
    "C89_update_outcome",
    "C89_merge_outcome",
    "C89_merge_comm",
    "C89_sample_lines",
    "C89_sample_merge",
    "C89_settings",
    "C89_history",
    "C89_complete",
    "C89_complete_small",
    "C89_report",
    "C89_unique_refuted",
    "C89_sampled_refuted",
    "C89_warning_refuted",
    "C89_memory_refuted",
    "C89_neutral_refuted",
    "C89_names_refuted",
    "C89_names_update"
   ],
   "note": "Lines, blankness and sizes in bytes are parameters; row labels are integers; the statistics of the lines are C29 and C32."
  },
  {
   "property": "C90",
   "status": "proved",
   "theorems": [
    "C90_histogram_total",
    "C90_merged_counts_have_no_report",
    "C90_merged_user_count",
    "C90_choice",
    "C90_choice_first",
    "C90_report_again",
    "C90_bins",
    "C90_bins_merged",
    "C90_user_count",
    "C90_report_keeps_data",
    "C90_report_neutral",
    "C90_merge_with_empty",
    "C90_smallest_loss_refuted",
    "C90_report_changes_later_refuted",
    "C90_bin_limit_after_merge_refuted"
   ],
   "note": "Numbers are exact; np.histogram and the estimates of bins are parameters with their defining properties; widths from merged profiles are C91."
  },
  {
   "property": "C91",
   "status": "proved",
   "theorems": [
    "C91_sqrt",
    "C91_rice",
    "C91_sturges",
    "C91_auto",
    "C91_fd",
    "C91_scott",
    "C91_doane",
    "C91_at_least_one_bin",
    "C91_unit_free",
    "C91_limit_refuted"
   ],
   "note": "Real numbers without rounding; NaN is None."
  },
  {
   "property": "C92",
   "status": "proved",
   "theorems": [
    "C92_alternatives",
    "C92_error",
    "C92_words",
    "C92_default",
    "C92_flags",
    "C92_columns",
    "C92_none",
    "C92_more",
    "C92_case_refuted",
    "C92_none_refuted",
    "C92_more_refuted",
    "C92_literal_refuted"
   ],
   "note": "Texts are ASCII; patterns have literals, dot, star and bar only."
  },
  {
   "property": "C93",
   "status": "proved",
   "theorems": [
    "C93_statistics",
    "C93_calculations",
    "C93_settings",
    "C93_quantiles",
    "C93_symmetric",
    "C93_needs_sum",
    "C93_mean_refuted",
    "C93_quantiles_refuted"
   ],
   "note": "Exact rational numbers; skewness, kurtosis and histogram are left out."
  },
  {
   "property": "C94",
   "status": "proved",
   "theorems": [
    "C94_kind",
    "C94_given",
    "C94_given_tables",
    "C94_outcome",
    "C94_graph",
    "C94_options",
    "C94_stays",
    "C94_shared",
    "C94_default",
    "C94_update",
    "C94_takes",
    "C94_text_files",
    "C94_refused",
    "C94_labels_refuted",
    "C94_failure_refuted",
    "C94_zero_refuted"
   ],
   "note": "Loading of labelers, validation of options (C77), sample size (C48) and the profiling of data are parameters; subclasses of profilers are left out."
  },
  {
   "property": "C95",
   "status": "proved",
   "theorems": [
    "C95_outcome",
    "C95_errors",
    "C95_merged",
    "C95_history",
    "C95_sound",
    "C95_chi2",
    "C95_corr",
    "C95_metrics",
    "C95_metrics_merge",
    "C95_report",
    "C95_restart",
    "C95_order_refuted",
    "C95_reload_refuted",
    "C95_covers_refuted"
   ],
   "note": "Whether schemas match (C18), batches have correlations and matrices fit (C22) are parameters; the values of the statistics are C22, C41, C63 and C73."
  },
  {
   "property": "C96",
   "status": "proved",
   "theorems": [
    "C96_rounds",
    "C96_sizes",
    "C96_all",
    "C96_invalid",
    "C96_no_epochs",
    "C96_unused_refuted",
    "C96_failure_refuted"
   ],
   "note": "Model, preprocessor, random permutations and the check of the pipeline (C45) are parameters; numbers are exact."
  },
  {
   "property": "C97",
   "status": "proved",
   "theorems": [
    "C97_save",
    "C97_roundtrip",
    "C97_equal",
    "C97_last",
    "C97_failed",
    "C97_options",
    "C97_equal_refuted",
    "C97_atomic_refuted",
    "C97_labels_refuted",
    "C97_case_refuted",
    "C97_weights_refuted"
   ],
   "note": "JSON values are texts without tuples; what constructors accept is a parameter; CharLoadTFModel is left out."
  },
  {
   "property": "C98",
   "status": "proved",
   "theorems": [
    "C98_list",
    "C98_dict",
    "C98_accepts",
    "C98_failed",
    "C98_builds",
    "C98_refused",
    "C98_no_net",
    "C98_order",
    "C98_batches",
    "C98_texts",
    "C98_renamed_refuted",
    "C98_pad_refuted",
    "C98_default_refuted",
    "C98_saved_refuted",
    "C98_short_batch_refuted"
   ],
   "note": "The net is a parameter that returns a row for every sample; training never fails."
  },
  {
   "property": "C99",
   "status": "proved",
   "theorems": [
    "C99_rows",
    "C99_position",
    "C99_ragged",
    "C99_other",
    "C99_table",
    "C99_cells",
    "C99_labels",
    "C99_default",
    "C99_trains",
    "C99_data",
    "C99_saved",
    "C99_plain_refuted",
    "C99_pad_refuted",
    "C99_cell_refuted",
    "C99_ragged_refuted"
   ],
   "note": "Texts of numbers, preprocessor, model and saving (C97) are parameters; whole numbers become floats without rounding; names on several levels are left out."
  },
  {
   "property": "C100",
   "status": "proved",
   "theorems": [
    "C100_float",
    "C100_one_number",
    "C100_int_reads",
    "C100_words",
    "C100_blanks",
    "C100_large",
    "C100_whole",
    "C100_close",
    "C100_near",
    "C100_tiny",
    "C100_digits",
    "C100_counts",
    "C100_whole_refuted",
    "C100_zero_refuted",
    "C100_huge_refuted"
   ],
   "note": "Texts in ASCII; the reading of texts by float() of Python is modelled after its documentation and rounds correctly."
  },
  {
   "property": "C101",
   "status": "proved",
   "theorems": [
    "C101_document",
    "C101_any_keys",
    "C101_lines",
    "C101_flat",
    "C101_lists",
    "C101_values",
    "C101_mixed",
    "C101_mixed_error",
    "C101_selected",
    "C101_rows",
    "C101_recognised",
    "C101_loaded",
    "C101_same_table_refuted",
    "C101_every_key_refuted",
    "C101_every_value_refuted",
    "C101_order_refuted",
    "C101_half_refuted",
    "C101_table_refuted"
   ],
   "note": "json_normalize and DataFrame of pandas are modelled after their documentation; the texts of cells are left out."
  },
  {
   "property": "C102",
   "status": "proved",
   "theorems": [
    "C102_sample",
    "C102_sample_no_header",
    "C102_small_file",
    "C102_lines",
    "C102_zero_rows",
    "C102_parquet",
    "C102_parquet_labels",
    "C102_parquet_sample",
    "C102_rows_refuted",
    "C102_readable_refuted",
    "C102_count_refuted",
    "C102_names_refuted",
    "C102_labels_refuted"
   ],
   "note": "read_csv of pandas is modelled as records of fields, by its documentation and tokenizer; types, selected columns and records of different lengths are left out."
  },
  {
   "property": "C103",
   "status": "proved",
   "theorems": [
    "C103_batches",
    "C103_range",
    "C103_value",
    "C103_perfect",
    "C103_averages",
    "C103_accuracy",
    "C103_report",
    "C103_make",
    "C103_made",
    "C103_make_errors",
    "C103_perfect_macro_refuted",
    "C103_one_prediction_refuted"
   ],
   "note": "Exact rational numbers instead of 32-bit floats."
  },
  {
   "property": "C104",
   "status": "proved",
   "theorems": [
    "C104_all",
    "C104_by_name",
    "C104_by_position",
    "C104_refused",
    "C104_bars",
    "C104_missing",
    "C104_missing_within",
    "C104_columns_drawn",
    "C104_colours_differ",
    "C104_drawn",
    "C104_missing_refuted",
    "C104_sorted_refuted",
    "C104_names_refuted",
    "C104_empty_refuted"
   ],
   "note": "matplotlib and seaborn are modelled by what is asked of them; a rectangle of negative height hangs down from its start, as documented."
  },
  {
   "property": "C105",
   "status": "proved",
   "theorems": [
    "C105_repeat",
    "C105_set_seed",
    "C105_variable",
    "C105_accepts",
    "C105_nothing",
    "C105_unseeded",
    "C105_all",
    "C105_other_rows_refuted",
    "C105_sample_refuted",
    "C105_order_refuted"
   ],
   "note": "Generators are arbitrary functions; what a call draws is a function of its generator and arguments."
  },
  {
   "property": "C106",
   "status": "proved",
   "theorems": [
    "C106_utf8",
    "C106_sample",
    "C106_first_guess",
    "C106_detect",
    "C106_small_letters",
    "C106_whole_passes",
    "C106_short_files",
    "C106_read",
    "C106_utf8_files",
    "C106_reader",
    "C106_system",
    "C106_set",
    "C106_crlf_refuted",
    "C106_beyond_refuted"
   ],
   "note": "Codecs other than UTF-8 and the two detectors are parameters; codecs are assumed to decode parts of files that they decode."
  },
  {
   "property": "C107",
   "status": "proved",
   "theorems": [
    "C107_fails",
    "C107_kinds",
    "C107_made",
    "C107_types",
    "C107_others",
    "C107_change",
    "C107_set",
    "C107_apart",
    "C107_loaded_apart",
    "C107_same",
    "C107_equal",
    "C107_saved",
    "C107_reload",
    "C107_comes_back",
    "C107_independent_refuted",
    "C107_own_directory_refuted",
    "C107_changed_refuted",
    "C107_nothing_refuted",
    "C107_class_refuted"
   ],
   "note": "What is in a component and how it is loaded from a directory are parameters; load_options are not given. Changes are functions on the contents of one part."
  },
  {
   "property": "C108",
   "status": "proved",
   "theorems": [
    "C108_half",
    "C108_mass",
    "C108_between",
    "C108_reported",
    "C108_small_scale_refuted",
    "C108_widths_refuted"
   ],
   "note": "Exact rational numbers."
  },
  {
   "property": "C109",
   "status": "proved",
   "theorems": [
    "C109_cell",
    "C109_nearest_unique",
    "C109_counts",
    "C109_integers",
    "C109_floats",
    "C109_floats_are_numbers_refuted"
   ],
   "note": "ASCII texts; sums are exact (no rounding after the conversion of cells). The default null values; batches of which all rows are looked at."
  },
  {
   "property": "C110",
   "status": "proved",
   "theorems": [
    "C110_lengths",
    "C110_letters",
    "C110_categories",
    "C110_merge_keeps_letters_refuted"
   ],
   "note": "ASCII texts; the default null values; numeric statistics all on or all off; batches of which all rows are looked at."
  },
  {
   "property": "C111",
   "status": "proved",
   "theorems": [
    "C111_recorded",
    "C111_elapsed",
    "C111_merged",
    "C111_operands",
    "C111_updates",
    "C111_names",
    "C111_at_most_elapsed_refuted",
    "C111_merging_keeps_operands_refuted",
    "C111_merge_time_shown_refuted"
   ],
   "note": "What timed methods do besides calling other timed methods is not modelled here; times are exact numbers; failures of histograms left out of histories."
  },
  {
   "property": "C112",
   "status": "proved",
   "theorems": [
    "C112_first",
    "C112_value_error",
    "C112_next",
    "C112_name",
    "C112_first_failed",
    "C112_history",
    "C112_merge",
    "C112_merge_refused",
    "C112_atomic_refuted",
    "C112_labels_refuted"
   ],
   "note": "What the profiles of a kind do is an oracle (constructors, updates that may raise and leave a changed object, merging); updates through a pool are in C23; options are none or an object of StructuredOptions."
  },
  {
   "property": "C113",
   "status": "proved",
   "theorems": [
    "C113_cells",
    "C113_count",
    "C113_names",
    "C113_same",
    "C113_merge",
    "C113_new_labels_refuted",
    "C113_failed_refuted",
    "C113_merged_update_refuted"
   ],
   "note": "Sampling is an oracle that chooses cells of the batch; the comparison of labelers is an oracle (see C45, C107); predictions are made cell by cell; confidences are exact."
  },
  {
   "property": "C114",
   "status": "proved",
   "theorems": [
    "C114_vocab",
    "C114_words",
    "C114_all",
    "C114_lower_first",
    "C114_lower_second",
    "C114_self",
    "C114_labels",
    "C114_global",
    "C114_sections",
    "C114_succeeds",
    "C114_empty_refuted",
    "C114_case_refuted",
    "C114_top_refuted"
   ],
   "note": "Texts are ASCII; label counts and shares are given dictionaries (C32); memory is given; output format and omitted keys are C40 and C70."
  },
  {
   "property": "C115",
   "status": "proved",
   "theorems": [
    "C115_own",
    "C115_computed",
    "C115_length",
    "C115_forward",
    "C115_inner_error",
    "C115_other_error",
    "C115_load_error",
    "C115_load_attribute_error",
    "C115_once",
    "C115_lazy",
    "C115_columns_refuted",
    "C115_load_error_refuted"
   ],
   "note": "The message of an AttributeError raised by a load is taken not to say that the data set has no attribute data."
  },
  {
   "property": "C116",
   "status": "proved",
   "theorems": [
    "C116_schema",
    "C116_serializable",
    "C116_report",
    "C116_plain",
    "C116_lost_refuted",
    "C116_diff",
    "C116_diff_shown",
    "C116_diff_plain",
    "C116_diff_fails",
    "C116_empty_refuted"
   ],
   "note": "Names that are floats or booleans are not modelled; differences of shared positions are those of C25."
  }
 ]
}