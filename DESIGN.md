# DataProfiler in Rocq: design

The model is in `rocq/theories`. For each topic `X` there are up to three files:

- `XModel.v`: the code of the repository as Gallina functions. Each definition cites file and lines. No proofs.
- `XProofs.v`: lemmas.
- `XProps.v`: the property theorems (`exact lemma`), each followed by `Print Assumptions`, and concrete examples which meet the hypotheses.

Specifications used in statements are defined in the Props file (or in a small `Spec` section at the head of the
Proofs file). They are meant not to call the model's helpers. Not every statement has been audited for this again
since it was written; C77 was found to use one (the truth of a value) and was restated.

## Trusted base

- The Coq 8.16.1 kernel (and `vm_compute`, used for witnesses and examples).
- Axioms: none of our own. Theorems over `Z`, `nat`, `list`, `Q` are closed under the global context. Theorems
  over the stdlib reals `R` use the stdlib's axioms; `Print Assumptions` in each Props file lists them
  (`ClassicalDedekindReals.sig_forall_dec`, `ClassicalDedekindReals.sig_not_dec`,
  `FunctionalExtensionality.functional_extensionality_dep`, and for some analysis lemmas `Classical_Prop.classic`).
- The transcription from Python to Gallina, done by hand. Global simplifications:
  - Floating point numbers are exact numbers (`Q`, or `R` where a square root or logarithm occurs). Rounding errors,
    overflow and signed zeros are not modelled, except where a file's header says so (C100, C109: rounding of cells). `nan`, `inf` and `None` are modelled where the code branches on them.
  - Python integers are `Z`/`nat`. Python dictionaries are association lists in insertion order.
  - pandas/numpy primitives (`value_counts`, `np.histogram`, `np.interp`, set operations) are modelled by their
    documented meaning, stated at the definition.
  - Random generators are arbitrary functions restricted to their documented range; hence theorems hold for every seed.
  - External engines (regular expressions, JSON parser, hash function, ML model) are section variables: arbitrary
    functions, so that theorems hold for every one.
- Not modelled: logging, warnings, progress bars, the TensorFlow model, plugins, network access itself (S3,
  requests to URLs), and the look of plots. Modelled only as the header of the file concerned says: `times` with the
  clock as a parameter (C111), which data are plotted (C104), the size limit of downloads (C87), the choice of an
  encoding with detectors and decoders as parameters (C106).

## Reading guide

A theorem whose name ends in `_refuted` states that an expectation fails in the modelled code and is proved by a
witness. Those are findings; they are collected at the end of this file. A theorem whose name ends in
`_partial` covers only part of the property; the comment beside it says what is missing.

## The log of wrong programs

`seeded/LOG.jsonl` has one line per edit of a definition of the model, tried in a scratch copy. In lines written by the
script that did most of them, `theorems_failed` lists the theorems whose proofs, or proofs of lemmas they use, no
longer go through after the edit. This does not show that each listed theorem is false for the wrong program: one
failing lemma counts for all theorems that use it, a proof may fail because of its script, and sentences were
limited to 60 seconds in the first pass, on a machine that was often busy. An empty list means that the edit survived.

## Properties: what is modelled and how it is proved
### C01 Shuffled sampling order visits every row exactly once

Profiling samples rows in the order given by shuffle_in_chunks. Whatever the random generator returns, the concatenation of the yielded chunks is a permutation of 0..n-1, every chunk has exactly chunk_size entries except the last which has the remainder, and an empty data set yields nothing.

- Code: dataprofiler/profilers/profiler_utils.py: shuffle_in_chunks, KeyDict
- Plan: Model the lazy Fisher-Yates with the defaulting dictionary as an association list with identity default; the generator is an arbitrary draw function constrained to its range. Prove the invariant that the dictionary is a permutation of 0..n-1 and the emitted prefix is its prefix.
- Status: proved. Theorems: `C01_shuffle_is_permutation`, `C01_shuffle_is_unbiased`.
- Note: All draws in the requested ranges. Draws are one per position.
- Files: SamplingModel/Proofs/Props

### C02 Reservoir sampling returns distinct lines of the file

Sampling k rows of an m line file returns exactly min(k,m) lines, taken from pairwise distinct positions of the file, for whatever random skips and eviction positions the generator produces; with m <= k the file is returned unchanged and in order.

- Code: dataprofiler/data_readers/data_utils.py: reservoir
- Plan: Model the loop over the line iterator with arbitrary skip and eviction draws; tag each line with its position; invariant: tags pairwise distinct, length fixed.
- Status: proved. Theorems: `C02_reservoir_distinct_lines`, `C02_reservoir_small_file`.
- Note: Floating-point computation of the skip lengths is abstracted to arbitrary draws.
- Files: SamplingModel/Proofs/Props

### C03 Merging a list of profiles uses every profile once and in order

merge_profile_list on a non-empty list terminates and yields one profile which is a merge of all inputs, each used exactly once and left to right; for an associative merge the result equals merging them one after the other.

- Code: dataprofiler/profilers/profiler_utils.py: merge_profile_list, chunk, merge
- Plan: Model chunk/merge/merge_profile_list with an abstract merge; show the leaves of the merge tree are the input list in order; derive the fold equality for associative merges.
- Status: proved. Theorems: `C03_merge_list_is_ordered_tree`, `C03_merge_list_is_fold`.
- Note: Removal and restoring of the data labelers around the merge is not modelled.
- Files: SamplingModel/Proofs/Props

### C04 Category counts do not depend on how the data was batched

As long as no stop condition triggers, the counts a categorical profile reports after any sequence of updates are, for every category, the number of occurrences of that category in all the data, the counts sum to the sample size, and two profiles merged report the counts of the concatenated data.

- Code: dataprofiler/profilers/categorical_column_profile.py: CategoricalColumn.update, _update_categories, __add__; dataprofiler/profilers/profiler_utils.py: add_nested_dictionaries
- Plan: Association-list dictionaries in insertion order, value_counts as counting; induction over batches; specification counts occurrences in the flattened data.
- Status: proved. Theorems: `C04_counts_are_occurrences`, `C04_never_stops_without_thresholds`, `C04_merge_succeeds`, `C04_merge_of_other_column_fails`.
- Note: pandas value_counts is any function returning the exact counts in any key order. Full mode only (no count-min sketch).
- Files: CategoricalModel/Proofs/Props/Props2

### C05 The category stop condition is evaluated on true totals and is permanent

Once a categorical profile has stopped it reports no categories, never counts again, keeps the unique count and ratio it stopped with and is never reported as categorical, whatever updates follow; and it stops in an update exactly when both thresholds are configured and the sample size and unique ratio including that batch reach them.

- Code: dataprofiler/profilers/categorical_column_profile.py: _update_stop_condition, _check_stop_condition_is_met, update, is_match, unique_count, unique_ratio
- Plan: State machine with fold over batches; the stopped state is absorbing by induction; the trigger is characterised against the flattened data.
- Status: proved. Theorems: `C05_stopped_is_permanent`, `C05_stops_exactly_at_thresholds`, `C05_merge_stops_exactly_at_thresholds`.
- Note: Ratios are exact rationals.
- Files: CategoricalModel/Proofs/Props/Props2

### C06 Merging categorical profiles when one has stopped

Merging two categorical profiles of which one has stopped gives a stopped profile; the merged sample size should be the number of rows seen by both. The code instead keeps the sample size of the larger profile, so rows are lost: this is stated exactly and refuted as a sum.

- Code: dataprofiler/profilers/categorical_column_profile.py: CategoricalColumn.__add__
- Plan: Model __add__ branch by branch; prove what it does keep and refute additivity with a witness.
- Status: proved. Theorems: `C06_merge_of_stopped`, `C06_merge_of_stopped_reports_larger`, `C06_merge_adds_sample_sizes_refuted`.
- Note: The user's expectation (sum of the sample sizes) is false of the code and refuted; what the code does is proved.
- Files: CategoricalModel/Proofs/Props/Props2

### C07 Gini impurity and unalikeability are well-defined fractions

For every profile the reported gini impurity is 1 minus the sum of squared category shares and lies in [0,1), being 0 exactly when at most one category occurs; unalikeability lies in [0,1], is the share of ordered pairs of distinct rows with different values, is 0 exactly when all rows agree and 1 exactly when all rows differ.

- Code: dataprofiler/profilers/categorical_column_profile.py: gini_impurity, unalikeability
- Plan: Exact rationals. Sum identities and inequalities by induction over the count list; specification by counting pairs in the data.
- Status: proved. Theorems: `C07_gini`, `C07_unalikeability`.
- Note: Exact rationals instead of floats.
- Files: CategoricalModel/Proofs/Props/Props2

### C08 Streaming minimum and maximum

A user expects the reported minimum (maximum) after any sequence of updates to be the minimum (maximum) of all values seen. The code forgets a running value which equals 0. So after any updates and merges the reported minimum (maximum) is one of the values and is the right one, with one exception: if the true minimum (maximum) is 0, a positive (negative) value can be reported instead.

- Code: dataprofiler/profilers/numerical_column_stats.py: _get_min, _get_max
- Plan: Rationals; fold over batches following the falsy test of the code; characterisation, correctness under the side condition, and a refutation witness.
- Status: proved. Theorems: `C08_minimum`, `C08_maximum`, `C08_minimum_exact`, `C08_maximum_exact`, `C08_single_batch_exact`, `C08_streaming_minimum_refuted`, `C08_streaming_maximum_refuted`.
- Note: Finite values as rationals. The unrestricted expectation is refuted; the exact exception is proved.
- Files: QFacts, NumericModel/Proofs/Props

### C09 Merged minimum and maximum

The minimum (maximum) of two merged numeric profiles is the minimum (maximum) of the values of both, for each combination of empty and non-empty profiles, and merging is commutative and associative.

- Code: dataprofiler/profilers/numerical_column_stats.py: _add_helper
- Plan: option Q with the is-None tests of the code.
- Status: proved. Theorems: `C09_merged_extrema`, `C09_merge_commutative_associative`.
- Note: Finite values as rationals.
- Files: QFacts, NumericModel/Proofs/Props

### C10 Mean and variance do not depend on batching or merging

For finite data the reported sum, mean and variance after any sequence of updates, or after merging profiles over any tree, equal the mean and the (population or sample) variance of all values; with fewer than two values the unbiased variance is nan.

- Code: dataprofiler/profilers/numerical_column_stats.py: _get_sum, mean, _get_variance, _update_variance, _merge_biased_variance, _correct_bias_variance, _add_helper
- Plan: Qc/Q arithmetic with option for nan; the Chan update is shown to preserve n, sum and sum of squared deviations.
- Status: proved. Theorems: `C10_sum_mean`, `C10_variance`.
- Note: Exact rationals instead of floats, finite values, all statistics enabled.
- Files: QFacts, NumericModel/Proofs/Props

### C11 Skewness and kurtosis do not depend on batching

However the values come in batches and merged profiles, the skewness reported is that of all values (mean cubed deviation over the cubed standard deviation, or the usual unbiased estimator; 0 for equal values; nan for fewer than 3 values with bias correction), and so is the excess kurtosis if the values are not all equal. Refuted expectations: the kurtosis of equal values does not depend on batching (it is -3 in one batch and 0 in two), and skewness does not depend on the unit (that of small values is 0).

- Code: dataprofiler/profilers/numerical_column_stats.py: _merge_biased_skewness, _merge_biased_kurtosis, _get_skewness, _get_kurtosis, _correct_bias_skewness, _correct_bias_kurtosis; dataprofiler/profilers/profiler_utils.py: biased_skew, biased_kurt
- Plan: Stdlib reals (sqrt); the threshold 1e-14 is kept in the single batch functions; algebraic identities of central moments; invariant over histories.
- Status: proved. Theorems: `C11_skewness`, `C11_kurtosis`, `C11_constant_kurtosis_refuted`, `C11_small_values_refuted`.
- Note: Real numbers instead of floats: the axioms of the standard library's real numbers (sig_forall_dec, sig_not_dec, functional_extensionality_dep) are used. Finite values.
- Files: MomentModel/Props

### C12 Float precision statistics under streaming

A user expects the precision statistics of a float column (min, max, sum, mean, variance of significant figures) to be those of all sampled values. They are, except the variance: because the sample size is advanced before the variance is merged, the streamed variance differs from the true one, while merging separate profiles is right.

- Code: dataprofiler/profilers/float_column_profile.py: _update_precision, __add__
- Plan: Q model of the update order; proof of the good fields, witness for the variance, proof for merge.
- Status: proved. Theorems: `C12_precision`, `C12_precision_variance_by_merging`, `C12_precision_variance_of_two_updates`, `C12_streamed_precision_variance_refuted`.
- Note: The streamed variance is wrong (refuted) and its formula for two batches is proved. Rounding to significant figures in the report is not modelled.
- Files: QFacts, NumericModel/Proofs/Props

### C13 Rebinning a histogram conserves the total count

When a stored histogram is re-binned, for merging two profiles or for choosing a report histogram, the total count in the new bins equals the total count in the old bins, no bin count becomes negative and no count is written outside the new bins, for any increasing bin edges covering the old range.

- Code: dataprofiler/profilers/numerical_column_stats.py: _assimilate_histogram, _regenerate_histogram, _add_helper_merge_profile_histograms
- Plan: Rational edges, Z counts, rounding half to even; the cursor loop is a structural recursion; sum invariant.
- Status: proved. Theorems: `C13_rebinning_conserves`, `C13_merging_conserves`, `C13_rebinning_local`, `C13_merging_local`.
- Note: Exact rational edges. Beyond the total, mass stays in the bins its source bin overlaps. The loss values are not modelled.
- Files: HistModel/Proofs/Proofs2/Proofs3/Props

### C14 Merging with an empty profile keeps the histogram statistics

A user expects adding an empty profile to change nothing. For the histogram this is false: when exactly one operand has a histogram the merged profile has none, so its median, mode and median absolute deviation are undefined although data was seen. All other numeric statistics are unchanged.

- Code: dataprofiler/profilers/numerical_column_stats.py: _add_helper, _add_helper_merge_profile_histograms, _has_histogram
- Plan: Record of the numeric profile; neutral element proved field by field, refuted for the histogram.
- Status: proved. Theorems: `C14_merge_with_empty_drops_histogram`, `C14_empty_is_neutral_refuted`, `C14_update_after_merge_with_empty`, `C14_other_statistics_unchanged`.
- Note: The expectation is refuted for the histogram; the rest is proved unchanged.
- Files: HistModel/Proofs/Proofs2/Proofs3/Props

### C15 Percentiles are monotone and inside the data range

Percentiles estimated from a histogram are monotone in the requested percentage and always lie between the first and the last bin edge.

- Code: dataprofiler/profilers/numerical_column_stats.py: _get_percentile, _get_quantiles
- Plan: Rational model of cumulative sums and interp including the 1e-15 offset and the median override.
- Status: proved. Theorems: `C15_percentile_in_range`, `C15_percentile_monotone`, `C15_percentile_in_right_bin`, `C15_quantiles_monotone`, `C15_percentile_monotone_everywhere_refuted`.
- Note: Exact rationals, total at most 10^15. Within 2e-8 of 50 percent (other than 50 itself) monotonicity is false and refuted.
- Files: HistModel/Proofs/Proofs2/Proofs3/Props

### C16 Order of a single batch

The order reported for one batch is constant value exactly when all values are equal, ascending (descending) exactly when the values are weakly sorted and not constant, random otherwise; first and last are the first value and the last value examined.

- Code: dataprofiler/profilers/order_column_profile.py: _get_data_order
- Plan: Structural loop with states; specification with Sorted predicates.
- Status: proved. Theorems: `C16_single_batch`, `C16_answers_exclusive`.
- Note: Numbers and text are arbitrary total orders; NaN does not reach the profile.
- Files: OrderModel/Proofs/Proofs2/Proofs3/Props

### C17 Order over several batches

The order after any sequence of updates and merges: constant value exactly when every batch is constant; ascending (descending) only if every batch rises (falls) and one is not constant; random is permanent; data sorted over the whole history, with some batch not constant, are recognised; two batches of one direction keep it exactly when their ranges do not overlap; merging is commutative and an empty profile is neutral. Users also expect that ascending means ascending data, that constant value means one value, that grouping of merges does not matter and that negated data exchange ascending and descending; all four are false of the code.

- Code: dataprofiler/profilers/order_column_profile.py: _merge_order, _is_intersecting, _is_enveloping, _update_order, __add__
- Plan: Branch-by-branch model over two totally ordered kinds of values (numbers, text) with the coercion to text; invariants by induction over histories; refutations by witness.
- Status: proved. Theorems: `C17_order_of_history`, `C17_constant_iff`, `C17_contradiction_is_random`, `C17_random_is_permanent`, `C17_merge_commutative`, `C17_empty_is_neutral`, `C17_sample_size`, `C17_sorted_data_recognised`, `C17_two_batches`, `C17_constant_after_batch`, `C17_range_encloses`, `C17_values_of_one_kind`, `C17_ascending_means_sorted_refuted`, `C17_constant_means_one_value_refuted`, `C17_merge_associative_refuted`, `C17_mirror_refuted`.
- Note: Four expectations of users are refuted.
- Files: OrderModel/Proofs/Proofs2/Proofs3/Props

### C18 Schema matching pairs columns one to one

When two structured profiles are merged or a new batch is profiled, the schema check succeeds exactly if each (case-insensitive) name occurs equally often on both sides and names occurring more than once do so at the same positions; then columns are paired one to one and by name. After any history of batches and merges the columns are those of the first batch and each has taken in exactly the cells of the column of its name of every batch, in order. A rejected batch raises ValueError. Findings: the check ignores case but a later step does not, so a batch named in another case fails after its null counts were added; column_null_values are looked up by the position in each batch, so permuted columns get another column's null values.

- Code: dataprofiler/profilers/profile_builder.py: _get_and_validate_schema_mapping, _update_profile_from_chunk, StructuredProfiler.__add__, StructuredColProfiler.update_column_profilers
- Plan: Schemas as association lists of name to index list; exceptions as values with the state they leave; invariant over histories that the columns hold the data of like-named columns.
- Status: proved. Theorems: `C18_check_passes_iff`, `C18_pairing_is_bijection`, `C18_merge_of_empty_fails`, `C18_columns_receive_their_data`, `C18_update_outcome`, `C18_first_batch_accepted`, `C18_merge_outcome`, `C18_null_values_in_fixed_order`, `C18_update_atomic_refuted`, `C18_null_values_follow_column_refuted`, `C18_own_null_values_kept_refuted`.
- Note: Names of any type with an idempotent lower; a column profile is reduced to its name and the batches it is given. Row sampling and the process pool are not part of this model.
- Files: PyString, SchemaModel/Proofs/Proofs2/Props

### C19 Row positions of nulls never collide across batches

When batches are profiled one after the other, whether or not their index ranges overlap, the set of null row positions kept for a column has as many elements as the reported null count, and is exactly the set of (shifted) labels of the null cells, provided each batch has distinct non-negative integer labels. With negative labels this fails: refuted.

- Code: dataprofiler/profilers/profile_builder.py: StructuredColProfiler._update_base_stats
- Plan: State (min id, max id, shift, null sets) and fold over batches, with invariant that all stored ids lie in [min,max] and the batches' shifted ids are disjoint.
- Status: proved. Theorems: `C19_positions_never_collide`, `C19_as_many_positions_as_nulls`, `C19_positions_in_range`, `C19_negative_labels_refuted`.
- Note: Cells, null pattern and set order are arbitrary.
- Files: NullModel/Proofs/Proofs2/Props

### C20 Null and sample counts of a column

For a batch with distinct row labels the reported sample size, null count and null types are those of the rows examined: null count + number of cleaned values = sample size, each null row is listed under exactly its own value. With repeated row labels (which the parquet reader produces) the null count is wrong: refuted. The null ratio kept beside the counts (used by diff) is that of the last batch only, and merging with a column profile that has seen no row fails.

- Code: dataprofiler/profilers/profile_builder.py: clean_data_and_get_base_stats
- Plan: Sampling loop over arbitrary chunked order; null matcher is an arbitrary predicate.
- Status: proved. Theorems: `C20_batch`, `C20_all_rows_examined`, `C20_update_succeeds`, `C20_merge_with_empty_fails`, `C20_null_ratio_of_last`, `C20_repeated_labels_refuted`, `C20_null_ratio_is_overall_refuted`.
- Note: Sampling order is arbitrary; the null pattern is an arbitrary predicate on cells.
- Files: NullModel/Proofs/Proofs2/Props

### C21 Row duplicate and uniqueness statistics

For full-hashing mode the reported duplicate row count is total rows minus distinct row hashes, unique ratio is distinct over total; both are independent of batching and of merging order, 0 <= duplicates <= total. With the HyperLogLog sketch the report is that of the sketch of the set of all rows. A row given again with permuted columns is not recognised as a duplicate: refuted.

- Code: dataprofiler/profilers/profile_builder.py: _update_row_statistics, _get_unique_row_ratio, _get_duplicate_row_count, StructuredProfiler.__add__
- Plan: Hash sets as lists without duplicates; hash is an arbitrary function.
- Status: proved. Theorems: `C21_full`, `C21_distinct_rows`, `C21_independent_of_batching`, `C21_sketch`, `C21_sketch_of_a_set`, `C21_disabled`, `C21_columns_may_be_permuted_refuted`.
- Note: Hash, registers, ranks and the cardinality estimator are arbitrary functions. Profiles are objects on a heap; programs are arbitrary sequences of create, update and merge.
- Files: PyEq, RowModel/Proofs/Props

### C22 Correlations do not depend on how the rows are batched

However the rows of a table are split into update batches and merged profiles, the reported correlation of two numeric columns is the Pearson correlation of all rows, if no batch has nulls or a numeric column that is constant; entries of other columns are nan, and a profile without rows has no matrix. A profile with nothing but nulls changes no correlation of the profile it is merged with. Merging moreover needs that all columns are numeric and come in the same order, and bias correction: a constant column in one batch makes the entry nan for good, a text column makes merging fail, nulls make the result depend on the batching, another column order or uncorrected standard deviations make it wrong (refuted).

- Code: dataprofiler/profilers/profile_builder.py: StructuredProfiler._update_correlation, _get_correlation, _merge_correlation, _merge_correlation_helper, _get_correlation_dependent_properties
- Plan: Stdlib reals; tables as lists of rows, histories of updates and merges.
- Status: proved. Theorems: `C22_correlation`, `C22_blank`, `C22_constant_batch_refuted`, `C22_text_column_refuted`, `C22_uncorrected_refuted`, `C22_nulls_refuted`, `C22_column_order_refuted`.
- Note: Real numbers instead of floats: the axioms of the standard library's real numbers are used. Tables with a fixed number of columns, all rows profiled.
- Files: CorrModel/Props

### C23 Multiprocess column profiling is schedule independent

Updating the profiles of a table in a pool of processes gives the same column profiles as updating them in a single process, whichever submissions to the pool are refused, whichever tasks fail and are done again, and whatever the number of processes; an update fails in the pool exactly if it fails in a single process. A pool sized automatically has more than two processes, fewer than the processors and at most one per column. Refuted expectations: null replication metrics do not depend on the pool; pool sizes keep to the free memory and leave processors to others.

- Code: dataprofiler/profilers/column_profile_compilers.py: BaseCompiler.update_profile; dataprofiler/profilers/profile_builder.py: StructuredProfiler._update_profile_from_chunk; dataprofiler/profilers/profiler_utils.py: generate_pool, suggest_cpu
- Plan: Failure patterns are arbitrary predicates; ordered dictionary of profiles with pure update functions.
- Status: proved. Theorems: `C23_profiles`, `C23_schedules`, `C23_table`, `C23_pool`, `C23_processes`, `C23_null_replication_refuted`, `C23_memory_refuted`, `C23_processors_refuted`.
- Note: Whether a column's base statistics fail is assumed not to depend on its profile; updates are functions of profile and data.
- Files: PoolModel/Props

### C24 Differences of numbers, strings and dates

diff of a statistic with itself is 'unchanged'; 'unchanged' is reported only for equal values; otherwise the difference of two numbers a-b is reported (so swapping negates it) and a pair [a,b] whenever one is missing or the values are strings; where numbers are compared True counts as 1 and False as 0.

- Code: dataprofiler/profilers/profiler_utils.py: find_diff_of_numbers, find_diff_of_strings_and_bools, find_diff_of_dates
- Plan: Direct model, sum-typed result.
- Status: proved. Theorems: `C24_numbers`, `C24_numbers_swap`, `C24_missing`, `C24_strings`, `C24_bools`, `C24_bool_numbers`, `C24_dates`, `C24_self_unchanged_refuted`.
- Note: Printing of dates is not modelled. NaN differs from itself (refuted).
- Files: PyEq, DiffModel/Proofs/Props

### C25 Differences of lists, sets and dictionaries

For sets, diff reports unchanged exactly when they are equal, else the elements only in the first, the shared, and only in the second, which partition the union. For dictionaries unchanged is reported exactly when all keys and values agree. For lists with repetitions unchanged can be reported for different multisets (refuted).

- Code: dataprofiler/profilers/profiler_utils.py: find_diff_of_lists_and_sets, find_diff_of_dicts, find_diff_of_dicts_with_diff_keys
- Plan: Lists with decidable equality.
- Status: proved. Theorems: `C25_lists`, `C25_lists_unchanged`, `C25_sets`, `C25_dict_entries`, `C25_dict_unchanged`, `C25_dict_succeeds`, `C25_dict_self`, `C25_parts`, `C25_parts_unchanged`, `C25_matrices`, `C25_list_unchanged_is_equal_refuted`, `C25_missing_key_unchanged_refuted`, `C25_dict_symmetric_refuted`.
- Note: 
- Files: PyEq, DiffModel/Proofs/Props

### C26 Saved profiles reload to the same profile

A user expects that saving a profile leaves it as it was and that loading the file gives it back. Saving a profile whose labelers agree succeeds and changes nothing; the profile loaded has the same class, options and attributes except those no pickle holds (correlation matrix, null replication metrics, sampling ratio, minimum sample size), which get their first values, and its columns are labelled by the labeler found on disk; it is the profile saved exactly if those had their first values and the labelers were already those; a profile once loaded can be saved and loaded without change; without correlations and null replication metrics and with the standard labeler the reports agree; graph profiles come back whole by their own class; unknown methods are refused. Refuted: correlations survive; the report of a loaded profile with null replication metrics works (it raises); the sampling ratio survives; a labeler of the user's own survives; a failed save leaves the profile as it was (its labelers are lost); a text profile without data can be saved; the method pickle loads only pickles; a class loads only files of its own; the file of a graph profile is refused by the general loader (it gives an empty table profile).

- Code: dataprofiler/profilers/profile_builder.py: StructuredProfiler.save, UnstructuredProfiler.save, BaseProfiler.load, _pkl_save_helper, _remove_data_labelers, _restore_data_labelers; dataprofiler/profilers/graph_profiler.py: save, load
- Plan: Record of attributes, options and labelers; save as projection, load as constructor default plus setattr loop plus labeler restoring.
- Status: proved. Theorems: `C26_new`, `C26_save`, `C26_unknown_method`, `C26_unknown_load`, `C26_attributes`, `C26_same`, `C26_again`, `C26_report`, `C26_no_labeler`, `C26_save_columns`, `C26_graph`, `C26_correlation_refuted`, `C26_metrics_refuted`, `C26_ratio_refuted`, `C26_labeler_refuted`, `C26_failed_save_refuted`, `C26_empty_text_refuted`, `C26_method_refuted`, `C26_class_refuted`, `C26_graph_refuted`.
- Note: Pickle is assumed to load equal values; loading a labeler from disk and reading JSON files are arbitrary functions.
- Files: SaveModel/Props

### C27 Merging does not modify its operands

A user expects a + b to leave a and b as they were. With full row hashing this holds for the statistics of rows (the times of the operands do change, see C111); with the HyperLogLog option the merged profile shares the left operand's sketch and the merge updates it, so the left operand changes (refuted).

- Code: dataprofiler/profilers/profile_builder.py: StructuredProfiler.__add__
- Plan: Explicit heap for the mutable sketch; separation of results.
- Status: proved. Theorems: `C27_full_no_interference`, `C27_sketch_merge_changes_left`, `C27_merge_keeps_operands_refuted`, `C27_unique_ratio_at_most_one_refuted`, `C27_merged_profile_is_independent_refuted`.
- Note: The expectation is proved for the full mode and refuted for sketches. Only the row hash object is on the heap; other statistics are rebuilt by merging; the times, which merging changes in the first operand, are in C111.
- Files: PyEq, RowModel/Proofs/Props

### C28 Word and vocabulary counts of free text

The character and word counts reported for unstructured text are those of all its texts however they are cut into updates; words are the pieces between white space with the punctuation around them removed; with case sensitivity off they are counts of the lower-cased words; no stop word and no empty word is counted; the sample size is the number of texts; the most common characters and words are in descending order of count and none left out is more common. A user who gives stop words expects them not to be reported; one with a capital letter still is (refuted).

- Code: dataprofiler/profilers/unstructured_text_profile.py: _update_vocab, _update_words, update
- Plan: Words as an abstract split function; multiset counts.
- Status: proved. Theorems: `C28_character_classes`, `C28_split`, `C28_strip`, `C28_sample_size`, `C28_characters`, `C28_words`, `C28_most_common`, `C28_given_stop_words_refuted`.
- Note: Characters are ASCII.
- Files: TextModel/Proofs/Props

### C29 Merging free-text profiles

The merged profile counts each character and each word that is not a stop word of the merged profile as often as both together (lower-cased if only one profile is case sensitive); the merged settings and stop words are as documented; merging in the other order gives the same counts whenever neither profile's stop words strictly contain the other's. A user expects that no stop word of either profile is reported after merging, and that merging commutes; both fail otherwise (refuted).

- Code: dataprofiler/profilers/unstructured_text_profile.py: _merge_words, _merge_vocab, __add__
- Plan: Association-list counters, stop-word lists.
- Status: proved. Theorems: `C29_counts`, `C29_settings`, `C29_no_stop_words`, `C29_commutative`, `C29_lower_case`, `C29_no_stop_words_refuted`, `C29_commutative_refuted`.
- Note: Names and times of the profiles are not modelled.
- Files: TextModel/Proofs/Props

### C30 Entity spans are exactly the maximal labelled runs

Converting character predictions to entity spans yields, per text, spans that are non-empty, ordered, pairwise disjoint, each carrying the one label all its characters have, covering exactly the characters whose label is neither pad nor background, and adjacent spans with the same label never touch.

- Code: dataprofiler/labelers/data_processing.py: CharPostprocessor.convert_to_NER_format
- Plan: Loop state machine; specification by positions.
- Status: proved. Theorems: `C30_spans`, `C30_succeeds`.
- Note: 
- Files: NerModel/Proofs/Proofs2/Props

### C31 Predictions are returned to the text they were made for

Texts are cut or joined into model inputs, predicted, and the predictions are cut back: every text receives exactly one prediction per character, namely the prediction made for that very character, for any cutting and joining parameters; each model input is non-empty and at most max_length long.

- Code: dataprofiler/labelers/data_processing.py: CharPreprocessor._process_batch_helper, _find_nearest_sentence_break_before_ind, CharPostprocessor.match_sentence_lengths
- Plan: Characters of an arbitrary type; fuel-free recursion on remaining text; invariant between emitted inputs and consumed text.
- Status: proved. Theorems: `C31_inputs`, `C31_round_trip`, `C31_labels`, `C31_batches`, `C31_label_row`, `C31_long_separator_refused`, `C31_labels_empty_separator_refuted`.
- Note: Characters, labels and predictions are of arbitrary types, flatten_split is an exact number. The label rows are refuted for an empty separator.
- Files: CharModel/Proofs/Proofs2/Props

### C32 Label counts of unstructured data

Each profiled text contributes each of its predictions to the raw character counts, each character under the label of the entity that covers it (or unknown) to the post-processed counts, and each entity to the word counts; the reported percentages are non-negative and sum to 1 when anything was counted; merging adds counts. Words outside entities count as unknown; a user expects each such word to be counted, but the last word of a text and a word touching an entity are not (refuted).

- Code: dataprofiler/profilers/unstructured_labeler_profile.py: _update_true_char_label_counts, _update_postprocess_char_label_counts, _get_percentages, __add__
- Plan: Counts as association lists; sums over spans.
- Status: proved. Theorems: `C32_predicted_characters`, `C32_characters`, `C32_words`, `C32_percentages`, `C32_succeeds`, `C32_single_word_refuted`, `C32_words_around_entity_refuted`.
- Note: For entity spans that are in order, disjoint and inside the text.
- Files: ULabelModel/Props

### C33 Quantile groups of the report

For any number of groups between 1 and the number of stored quantiles plus one, exactly groups-1 values are reported, the i-th is the first stored quantile at or above the level i/groups, so they are non-decreasing, and one group more than stored quantiles gives all of them. Two expectations are refuted: with double precision numbers the same holds for any number of groups (for the default number of stored quantiles it does up to 29 groups, with 30 groups another value than the median is shown for it), and a report of one or two stored quantiles can always be made (an invalid group number falls back to 4 groups, which raises an error).

- Code: dataprofiler/profilers/helpers/report_helpers.py: calculate_quantiles
- Plan: Z division ceil; error result on out-of-range index.
- Status: proved. Theorems: `C33_values`, `C33_sorted`, `C33_all`, `C33_floats`, `C33_rounding_refuted`, `C33_few_quantiles_refuted`.
- Note: Double precision numbers of the standard library (SpecFloat), without axioms.
- Files: QuantModel/Props

### C34 Flattened JSON keeps every value

The table made from a JSON document has, under the joined keys, exactly the values of the document: nothing is lost or added, no row contains a key twice, row number j has for each key the j-th value of this key, and there are as many rows as values of some key (or one). The payload chosen as data is one with the most rows. A user expects the values of one record to be in the same row: refuted, a record that lacks a key takes the value of a later record.

- Code: dataprofiler/data_readers/json_data.py: _coalesce_dicts, _find_data, _get_data_as_flattened_dataframe
- Plan: Greedy insertion into a list of association lists; permutation lemma; refutation.
- Status: proved. Theorems: `C34_rows`, `C34_nothing_lost`, `C34_document`, `C34_payload`, `C34_records_stay_together_refuted`.
- Note: Key order of the data frame and its value types are not modelled.
- Files: JsonModel/Props

### C35 Reading the beginning of a file

Reading a bounded sample of a file as a string returns a beginning of the file with fewer line ends than the line limit; it ends with the file, before a line end, at the byte limit or before the last character, and it is less than one chunk longer than the limit (within it if the chunk size divides it). If the limits are not reached and the last chunk is not a single character, the whole file is returned. The search for the n-th line end returns the n-th, or the length and the number found. Refuted expectations: the byte limit is kept for all chunk sizes, a file within the limits is returned as a whole, the result does not depend on the chunk size, consecutive matches of a longer query count once.

- Code: dataprofiler/data_readers/data_utils.py: load_as_str_from_file, find_nth_loc
- Plan: Chunked loop over a string as a list of characters.
- Status: proved. Theorems: `C35_find`, `C35_find_nothing`, `C35_load`, `C35_load_all`, `C35_limit`, `C35_limit_refuted`, `C35_whole_file_refuted`, `C35_chunk_size_refuted`, `C35_consecutive_refuted`.
- Note: Files are lists of decoded characters; limits in bytes count characters, as the code does for text.
- Files: ReadModel/Props

### C36 Text data is cut without loss

The chunks of a text data set concatenate to the full text, each has at most samples_per_line characters and none is empty.

- Code: dataprofiler/data_readers/text_data.py: _get_data_as_text
- Plan: range-step slicing model.
- Status: proved. Theorems: `C36_text_chunks`, `C36_not_text_is_an_error`.
- Note: 
- Files: SamplingModel/Proofs/Props

### C37 Batch generation covers each row once

get_batch_generator yields each row exactly once over all batches, every batch having batch_size rows except the last, for every random permutation.

- Code: dataprofiler/data_readers/base_data.py: get_batch_generator
- Plan: Slicing of a permuted index list.
- Status: proved. Theorems: `C37_batches_cover_each_row_once`, `C37_partition`.
- Note: 
- Files: SamplingModel/Proofs/Props

### C38 Labels of a column

However a column's label predictions are batched, the votes of a label are the number of cells whose best label it is with enough confidence, and its average prediction is the mean of its confidences. The label representation gives each label its share of the votes, these are between 0 and 1 and add up to 1 if any cell voted. The reported label is empty if no label has 35% of the votes, and otherwise lists at most three labels in order of their votes, the first with the most votes and the others within 20% of it. Profiles can be merged exactly if both have no data, or each of them has had a cell that voted or a report of it has been read. Refuted expectations: merging with an empty profile works, profiles that both have data can be merged (not if no cell of one was labelled with confidence and no report of it has been read), the reported label does not depend on the order of a set, label mappings may have gaps, and the 20% limit is exact.

- Code: dataprofiler/profilers/data_labeler_column_profile.py: _update_predictions, label_representation, avg_predictions, data_label, __add__
- Plan: Votes as counts; option for uninitialised state.
- Status: proved. Theorems: `C38_total`, `C38_votes`, `C38_representation`, `C38_label`, `C38_added`, `C38_merge_refuted`, `C38_no_votes_refuted`, `C38_order_refuted`, `C38_gap_refuted`, `C38_rounding_refuted`.
- Note: The best label of a cell is given by an arbitrary function that finds a largest confidence; confidences are exact.
- Files: LabelColModel/Props

### C39 Selected data type

The data type of a column is the first of datetime, int, float, text that is enabled and that all values fit, after any updates and merges, as long as dates are recognised; otherwise it may only be the first one besides datetime. With a text profile every column with values has a data type, and no value ever fails to fit it. The share reported for int and float is the share of the values that fit. After an update the report calls texts string if none has more than 255 characters. Profiles with different types enabled cannot be merged. Refuted expectations: merged profiles of short texts report string, and a column of dates has the same type whatever the batches.

- Code: dataprofiler/profilers/column_profile_compilers.py: ColumnPrimitiveTypeProfileCompiler.selected_data_type; dataprofiler/profilers/base_column_profilers.py: BaseColumnPrimitiveTypeProfiler; dataprofiler/profilers/int_column_profile.py: data_type_ratio; dataprofiler/profilers/text_column_profile.py: update
- Plan: Histories with the state of each type in closed form.
- Status: proved. Theorems: `C39_selected`, `C39_recognised`, `C39_always`, `C39_shares`, `C39_reported`, `C39_options`, `C39_string_refuted`, `C39_batching_refuted`.
- Note: What is a number or a date is given by arbitrary predicates.
- Files: TypeModel/Props

### C40 Flattened reports keep every entry

The flat report format contains every leaf of the nested report under its path, provided no two paths flatten to the same key; in every case its keys are those of the paths, and a value is that of a leaf with that key. Refuted expectations: entries are kept if keys collide (one is silently lost), the entries below the key 0 keep it in their name, and an empty dictionary remains visible.

- Code: dataprofiler/profilers/helpers/report_helpers.py: flat_dict
- Plan: Rose tree of strings; paths as list of keys.
- Status: proved. Theorems: `C40_flat`, `C40_keys`, `C40_lost_refuted`, `C40_zero_refuted`, `C40_empty_refuted`.
- Note: Keys are strings and integers.
- Files: ReportModel/FlatProps

### C41 Null replication metrics

A column has null replication metrics exactly if it has a null; its two class priors are the shares of rows where it is given and where it is null. For tables of numbers the class sums are the sums of each other column over these rows and the class means are the sums divided by their number, whatever the updates and merges, if rows are labelled 0, 1, ... in each batch as they are by default. Refuted expectations: this holds for other row labels, for columns of texts (lengths are mixed with numbers), for batches with columns in another order and for merged tables with columns in another order; tables with a column of dates can be merged; tables with a column of texts and nulls can be profiled when correlations are enabled; no sum is lost when a column has no values in one of the merged tables. Tables of numbers get the same metrics with correlations as without; otherwise profiling fails exactly if a column has nulls and the others are not all numbers, unless exactly one of them is or there are only two columns.

- Code: dataprofiler/profilers/profile_builder.py: _update_null_replication_metrics, _merge_null_replication_metrics
- Plan: Q sums over rows; labels and their shifts as integers.
- Status: proved. Theorems: `C41_priors`, `C41_sums`, `C41_default_labels`, `C41_labels_refuted`, `C41_text_refuted`, `C41_order_refuted`, `C41_place_refuted`, `C41_date_refuted`, `C41_lost_refuted`, `C41_correlation_refuted`, `C41_correlation_numbers`, `C41_correlation_fails`.
- Note: All rows profiled; exact numbers.
- Files: NullRepModel/Props

### C42 Regex labeler predictions

For every text there is one row of votes per character. A label other than the default one has a vote exactly where one of its patterns matches; the default label has one where nothing matches and none where only others match. Confidences of a character add up to 1. Prediction fails only if a label with patterns is not in the label mapping.

- Code: dataprofiler/labelers/regex_model.py: RegexModel.predict
- Plan: Regex engine is an arbitrary function returning spans; fold over patterns.
- Status: proved. Theorems: `C42_votes`, `C42_confidences`, `C42_succeeds`, `C42_one_prediction_per_text_refuted`, `C42_background_is_exclusive_refuted`.
- Note: The regex engine is an arbitrary function from patterns and texts to spans.
- Files: RegexModel/Proofs/Proofs2/Props

### C43 Label mapping bookkeeping

Adding a label never changes the number of an existing label and gives the new label either the number of the label it is declared the same as, or a number above all in use; the number of labels is one above the largest number; labels are listed by number. Labels given as a list and added one by one are numbered consecutively in the order they were named first.

- Code: dataprofiler/labelers/base_model.py: add_label, set_label_mapping, _convert_labels_to_label_mapping, num_labels, labels, reverse_label_mapping
- Plan: Association list maps, fold over operations.
- Status: proved. Theorems: `C43_numbers_kept`, `C43_added`, `C43_accepted`, `C43_num_labels`, `C43_labels`, `C43_consecutive`, `C43_every_label_listed_refuted`.
- Note: 
- Files: LabelModel/Props

### C44 Scores of a labeler evaluation

The confusion matrix counts, for each pair of labels, the positions that have them as true and predicted label, whatever the batch size. Per-label counts, precision, recall and F scores are those of the counted pairs and lie in [0,1]; micro averages over all labels and recall weighted by support are the accuracy; the returned score is the mean of F1 over the labels which are not omitted and occur.

- Code: dataprofiler/labelers/classification_report_utils.py: convert_confusion_matrix_to_MCM, precision_recall_fscore_support, classification_report; dataprofiler/labelers/labeler_utils.py: f1_report_dict_to_str, evaluate_accuracy
- Plan: Matrices as functions; every count is related to the number of pairs with a property.
- Status: proved. Theorems: `C44_matrix`, `C44_matrix_exists`, `C44_counts`, `C44_scores`, `C44_scores_exist`, `C44_accuracy`, `C44_weighted_recall`, `C44_score`, `C44_same_positions_refuted`, `C44_perfect_predictions_refuted`, `C44_score_at_most_one_refuted`.
- Note: Exact rationals. The printed report is not modelled.
- Files: ConfModel/Proofs/Props

### C45 Changing labeler parameters is atomic per component

After a call that sets parameters, whether it raised an error or not, every component has all its requested parameters or is as before; if the call succeeds all components named have them and the others are as before, and the warnings name exactly the parameters on which two components disagree. Malformed requests change nothing. A user expects any failing call to change nothing: refuted, the preprocessor stays changed when the model refuses.

- Code: dataprofiler/labelers/base_data_labeler.py: set_params, check_pipeline; dataprofiler/labelers/base_model.py: set_params; dataprofiler/labelers/data_processing.py: BaseDataProcessor.set_params
- Plan: Validation is an arbitrary predicate; state is an association list.
- Status: proved. Theorems: `C45_component_all_or_nothing`, `C45_success`, `C45_malformed_request`, `C45_single_component`, `C45_warnings`, `C45_failed_call_changes_nothing_refuted`, `C45_valid_parameters_accepted_refuted`.
- Note: The expectation that a failing call changes nothing is refuted; what holds is proved.
- Files: LabelModel/Props

### C46 Handling paths and buffers

After any number of successful uses a buffer given to the handler is open, at its start and without text wrapper, and no file was opened; a file opened from a path is closed after use; anything else is rejected with an AttributeError. Refuted expectations: a handler can be used again (not for a path), the position of the buffer is as before (it is the start), and nothing is left open if entering fails.

- Code: dataprofiler/data_readers/filepath_or_buffer.py: FileOrBufferHandler.__enter__, __exit__
- Plan: Small state machine of handler and stream; induction over the uses.
- Status: proved. Theorems: `C46_other`, `C46_buffer`, `C46_path`, `C46_unopenable`, `C46_used_again_refuted`, `C46_position_refuted`, `C46_failure_cleans_up_refuted`.
- Note: Bodies that close the stream are not modelled.
- Files: ReadModel/Props

### C47 Match counts never exceed sample counts

For typed columns 0 <= matches <= sample size always holds, hence the data type ratio is in [0,1]; it is missing exactly when nothing was sampled; matches and sample sizes add under update and merge.

- Code: dataprofiler/profilers/int_column_profile.py: IntColumn; dataprofiler/profilers/float_column_profile.py: FloatColumn; dataprofiler/profilers/base_column_profilers.py: _add_helper, _update_column_base_properties
- Plan: Counter state machine with an arbitrary matcher.
- Status: proved. Theorems: `C47_match_counts`.
- Note: The test whether a cell is of the type is arbitrary.
- Files: QFacts, NumericModel/Proofs/Props

### C48 Sample size selection

The number of rows sampled from a data set is all rows if there are at most the minimum, otherwise the larger one of the minimum and the share of the rows, rounded down, which is at most all rows when the sampling ratio is in (0,1]. A larger data set is never sampled less. A positive number given by the caller is used instead. Merged columns sample at least as much as either of them from data sets larger than both minima.

- Code: dataprofiler/profilers/profile_builder.py: _get_sample_size; dataprofiler/profilers/profile_builder.py: update_profile
- Plan: Q floor.
- Status: proved. Theorems: `C48_size`, `C48_monotone`, `C48_given`, `C48_merged`.
- Note: Exact products instead of floating point.
- Files: SizeModel/Props

### C49 Population stability index

The population stability index of two numeric columns is missing exactly if one has no histogram, is otherwise not negative, and comparing fails exactly if both have the same edges with fewer than ten bins. If the edges differ and the first histogram has not exactly ten bins, it is the sum of (q-p)*ln(q/p) over the shares p, q of ten common bins in which both are positive; so also for the given bins if they are ten and the same. It is 0 exactly if the shares agree wherever both are positive and does not depend on the direction. The same holds for columns of categories. Refuted expectations: the index of a column with itself is 0; it can be computed for all numbers of bins; bins compared cover the same range; it is positive for columns without a common value; categories of a column can be compared with those of a column of nulls.

- Code: dataprofiler/profilers/numerical_column_stats.py: _preprocess_for_calculate_psi, _calculate_psi; dataprofiler/profilers/categorical_column_profile.py: diff, _preprocess_for_categorical_psi_calculation
- Plan: Stdlib reals with ln.
- Status: proved. Theorems: `C49_defined`, `C49_common`, `C49_given`, `C49_zero`, `C49_symmetric`, `C49_categories`, `C49_identical_refuted`, `C49_index_refuted`, `C49_ranges_refuted`, `C49_disjoint_refuted`, `C49_categories_refuted`, `C49_empty_refuted`.
- Note: Exact reals; histograms have at least one value.
- Files: PsiModel/Props

### C50 Word-level label smoothing

Word-level relabelling returns as many labels as characters and only changes labels inside words; a user expects all characters of a word with a dominant label to get it, but the last character of the text never does and a text of one word is never relabelled (refuted).

- Code: dataprofiler/labelers/data_processing.py: CharPostprocessor._word_level_argmax
- Plan: Loop model over characters with separator predicate.
- Status: proved. Theorems: `C50_length`, `C50_words`, `C50_separators`, `C50_last_word`, `C50_one_word`, `C50_last_character_refuted`, `C50_unanimous_word_refuted`.
- Note: What happens to words and separators is proved; two expectations are refuted.
- Files: NerModel/Proofs/Proofs2/Props

### C51 Reading JSON lines

Each valid JSON line before the first empty entry is returned exactly once and in order, invalid lines are skipped, and an error is raised only if no line is valid; lines after an empty line are lost (refuted completeness).

- Code: dataprofiler/data_readers/data_utils.py: read_json, data_generator
- Plan: JSON parser is an arbitrary partial function.
- Status: proved. Theorems: `C51_lines`, `C51_all_lines_refuted`.
- Note: The JSON parser is any partial function.
- Files: JsonModel/Props

### C52 Postprocessing of regex predictions

Priority aggregation assigns each character the matching label which comes first in the priority order; random aggregation a label with most votes whatever order is drawn; split aggregation turns each row with at least one match into shares which sum to 1. The settings stay valid under all calls that change them. A user expects that the label chosen has a vote, and that a processor using priority has an order: both refuted.

- Code: dataprofiler/labelers/data_processing.py: RegexPostProcessor.priority_prediction, split_prediction, process, _validate_parameters, set_params
- Plan: Rows as lists; argmax first-max semantics.
- Status: proved. Theorems: `C52_priority`, `C52_priority_succeeds`, `C52_random`, `C52_split`, `C52_settings_stay_valid`, `C52_order_required`, `C52_chosen_label_has_vote_refuted`, `C52_priority_has_an_order_refuted`.
- Note: The random order is an arbitrary permutation.
- Files: RegexModel/Proofs/Proofs2/Props

### C54 Top categories in the report

The categorical_count entry lists categories in descending order of their true number of occurrences, each at most once, as many as top_k allows, and no category left out occurs more often than one listed.

- Code: dataprofiler/profilers/categorical_column_profile.py: CategoricalColumn.profile
- Plan: Stable insertion sort as the meaning of sorted(reverse=True); specification is order, membership and cut.
- Status: proved. Theorems: `C54_top_categories`.
- Note: 
- Files: CategoricalModel/Proofs/Props/Props2

### C55 Options of a categorical profile after merging

A user expects the merge of two profiles to keep the options they were configured with. top_k is always lost, and of two sets of stop thresholds the merge keeps those of the profile with fewer categories (the second one's on a tie), even if they are unset while the other's are set.

- Code: dataprofiler/profilers/categorical_column_profile.py: CategoricalColumn.__add__
- Plan: Characterisation against the number of distinct values each side has seen; refutation witnesses for the expectation.
- Status: proved. Theorems: `C55_merge_thresholds`, `C55_merge_keeps_top_k_refuted`, `C55_merge_keeps_thresholds_refuted`.
- Note: The expectation that options survive is refuted; the exact rule is proved.
- Files: CategoricalModel/Proofs/Props/Props2

### C57 Counts of zeros and negatives

The reported number of zeros (negatives) of a numeric column is the number of zeros (negatives) among all its values, after any updates and merges; together they never exceed the number of values.

- Code: dataprofiler/profilers/numerical_column_stats.py: _get_num_zeros, _get_num_negatives, _add_helper
- Plan: Same numeric state machine as C10.
- Status: proved. Theorems: `C57_zeros_and_negatives`.
- Note: 
- Files: QFacts, NumericModel/Proofs/Props

### C58 The histogram accounts for every value

After any history of updates with finite values, and merges of profiles that have both seen values (or neither), the counts of the stored histogram add up to the number of values seen, whatever binning is chosen for each step. After an update all its values, and those the former histogram stands for, lie within the edges; values that are all equal make one bin of no width.

- Code: dataprofiler/profilers/numerical_column_stats.py: _update_histogram, _get_histogram, _histogram_to_array, _add_helper
- Plan: State machine over histories with an arbitrary histogram function; total as invariant.
- Status: proved. Theorems: `C58_histogram_total`, `C58_within`.
- Note: np.histogram is any function whose counts add up (and whose edges enclose the values). Values are finite.
- Files: HistModel/Proofs/Proofs2/Proofs3/Props

### C59 The median follows a shift of the data

A user expects that adding a constant to all values adds it to the median. This is false when the two middle values lie around a gap whose centre is 0: the centre is computed, found falsy and dropped, and the left end of the gap is returned. In all other cases every percentile shifts with the data.

- Code: dataprofiler/profilers/numerical_column_stats.py: _get_percentile
- Plan: Equivariance of interpolation and mean; a witness for the exception.
- Status: proved. Theorems: `C59_percentiles_shift`, `C59_median_shift_refuted`.
- Note: The unrestricted expectation is refuted.
- Files: HistModel/Proofs/Proofs2/Proofs3/Props

### C60 Median absolute deviation from the folded histogram

Folding the histogram at its median splits the mass exactly at the median, without loss and without negative parts, if the median lies in the second or a later bin. If it lies in the first bin the reported deviation is 0 whatever the data, so mirrored data report a different deviation.

- Code: dataprofiler/profilers/numerical_column_stats.py: _fold_histogram, median_abs_deviation
- Plan: Rational model of the fold; the split is compared with the linear distribution function. The superposition of the two halves after the fold is not modelled.
- Status: proved. Theorems: `C60_fold_splits_mass`, `C60_mad_zero_in_first_bin`, `C60_mad_mirror_refuted`.
- Note: The interpolation after the fold is C108.
- Files: HistModel/Proofs/Proofs2/Proofs3/Props

### C61 Mode estimate

The mode estimate lists the midpoints of the bins with the largest count, leftmost first, at most top_k_modes of them, and never fails on a non-empty histogram.

- Code: dataprofiler/profilers/numerical_column_stats.py: _estimate_mode_from_histogram
- Plan: Loop invariant relating the collected indices to the bins of maximal count.
- Status: proved. Theorems: `C61_mode`.
- Note: 
- Files: HistModel/Proofs/Proofs2/Proofs3/Props

### C62 Categorical or not

A column is called categorical exactly when counting was not stopped and it has at most ten distinct values, or at most a fifth of its rows are distinct.

- Code: dataprofiler/profilers/categorical_column_profile.py: is_match, unique_ratio
- Plan: Case analysis on the model of is_match with the counts as specified by C04.
- Status: proved. Theorems: `C62_is_match`.
- Note: 
- Files: CategoricalModel/Proofs/Props/Props2

### C63 Rows with nulls

The number of rows with a null cell and of rows of null cells only, and their ratios, are those of the rows examined: without a minimum of true samples over all examined rows, with one over the rows that every column examined, batch by batch, whatever the row labels.

- Code: dataprofiler/profilers/profile_builder.py: _update_row_statistics, _min_sampled_from_batch, _min_col_samples_used, _update_base_stats
- Plan: Invariant: one table, with distinct labels, such that each column's null positions are those of its column of the table; counting by duplicate free label sets.
- Status: proved. Theorems: `C63_rows_with_nulls`, `C63_rows_with_nulls_min_true`, `C63_counted_rows_unique`, `C63_all_null_at_most_some_null`, `C63_any_labels_refuted`, `C63_ratio_of_counted_rows_refuted`.
- Note: Proved without a minimum of true samples; with one, proved when each batch has a row labelled 0 and refuted for arbitrary labels.
- Files: RowNullModel/Proofs/Proofs2/Props

### C64 One label for a cell from the labels of its characters

The label of a cell is one of the most frequent labels of its characters apart from padding, and the background label only if that is more frequent than every other one; the confidence of a label is its share of these characters and the confidences add up to 1; a cell without such characters has no label.

- Code: dataprofiler/labelers/data_processing.py: StructCharPostprocessor.convert_to_structured_analysis
- Plan: Counter as an association list; the random choice is an arbitrary function returning one of the candidates.
- Status: proved. Theorems: `C64_label`, `C64_no_label`, `C64_confidence`.
- Note: The random choice is arbitrary among the candidates.
- Files: RegexModel/Proofs/Proofs2/Props

### C65 One label for a cell from regex votes

A cell with characters gets the first label with the largest mean share of votes, its confidences are these means and add up to 1; if all characters vote for one label alone it gets that label; a cell with characters in which nothing matches gets the default label. A user expects the same of an empty cell: refuted, it gets the label with number 0.

- Code: dataprofiler/labelers/data_processing.py: StructRegexPostProcessor.process
- Plan: Composition of the vote model with shares, means and first maximum.
- Status: proved. Theorems: `C65_cell`, `C65_unanimous`, `C65_unmatched_cell`, `C65_unmatched_cell_is_default_refuted`.
- Note: 
- Files: RegexModel/Proofs/Proofs2/Props

### C53 Heavy hitters with a count-min sketch

With count-min-sketch counting, after any updates and merges every value that makes up at least the share 1/limit of the data is reported, no reported count is too small, and none exceeds the number of values that collide with it in any row of the sketch (so counts are exact without collisions). A user expects to be able to update a merged profile and to merge profiles in any grouping, and to get a ValueError for sketches of different sizes; all three fail (refuted).

- Code: dataprofiler/profilers/categorical_column_profile.py: _get_categories_cms, _merge_categories_cms, _update_categories, __add__
- Plan: Sketch as a table of counts for arbitrary hash functions.
- Status: proved. Theorems: `C53_frequent_reported`, `C53_reported_counts`, `C53_exact`, `C53_sample_size`, `C53_succeeds`, `C53_update_after_merge_refuted`, `C53_associative_refuted`, `C53_incompatible_sizes_refuted`.
- Note: The sketch of the library datasketches is modelled by its documented table of counts.
- Files: CmsModel/Props

### C67 Data cut into lines and records

Text data cut into samples per line makes up the text again, every line is full except the last, which is not empty; records of tables joined by newlines are the rows joined by newlines; JSON and Parquet text within the limit is one line. Two expectations are refuted: a table without rows gives no records (it raises a division error), and the lines of JSON text longer than the limit make up the text (the last line is dropped if it is not full).

- Code: dataprofiler/data_readers/text_data.py: _format_data_to_lines; dataprofiler/data_readers/json_data.py: _get_data_as_json; dataprofiler/data_readers/structured_mixins.py: _get_data_as_records
- Plan: Lists cut into groups.
- Status: proved. Theorems: `C67_text_lines`, `C67_record_lines`, `C67_one_line`, `C67_whole_lines`, `C67_no_records_refuted`, `C67_all_text_refuted`.
- Note: 
- Files: JsonModel/Props

### C68 Records from flat columns are nested again

A flat dictionary with separators in its keys, in which no key leads through another, becomes a nested dictionary in which following the parts of a key gives its value, and nothing else is in it. A user expects this, or an error, for other keys as well: refuted, a value may be dropped silently; and there is an error for a key that leads through another one.

- Code: dataprofiler/data_readers/json_data.py: _convert_flat_to_nested_cols
- Plan: Recursion with fuel; the multiset of (path, value) pairs is invariant.
- Status: proved. Theorems: `C68_nested`, `C68_values_kept_refuted`, `C68_any_keys_refuted`.
- Note: 
- Files: JsonModel/NestProps

### C69 Keys collected from AVRO records

The nested keys collected from records are exactly the key paths that occur in some record, and they can be collected if no key leads to a value in one record and to a dictionary in another. For other records there is an error that depends on the order of the records (refuted totality).

- Code: dataprofiler/data_readers/avro_data.py: _get_nested_key, _get_nested_keys_from_dicts
- Plan: Recursion over nested dictionaries; sets of paths.
- Status: proved. Theorems: `C69_keys`, `C69_succeeds`, `C69_any_records_refuted`.
- Note: 
- Files: JsonModel/AvroProps

### C70 Omitted keys of reports

A report with keys to omit has exactly the entries that no key to omit selects, at the same places, unchanged and in order. A key to omit selects an entry if its parts, separated by dots, are wildcards or equal to the first keys that lead to the entry; the part after data_stats stands for the name of a column. This is proved for keys to omit that do not end in two wildcards. Refuted expectations: two wildcards omit what is below the first level (an error if there is a column), the entries of a column with a dot in its name can be omitted, and making a compact report leaves the list of the caller alone.

- Code: dataprofiler/profilers/helpers/report_helpers.py: _prepare_report
- Plan: Recursive model with an error result; paths to entries; covering of paths by split keys.
- Status: proved. Theorems: `C70_omit`, `C70_wildcards_refuted`, `C70_dotted_name_refuted`, `C70_caller_list_refuted`.
- Note: The formatting of values (rounding, shortening) is not modelled.
- Files: ReportModel/OmitProps

### C71 Dates of a column

If the dates of each batch are recognised, a column has as many dates as values that some format fits, the formats are those that are the first to fit some value, each listed once, and the first and last dates are the smallest and largest ones. Whatever is sampled and in whatever batches, never more values are counted than some format fits, and every format, first and last date reported comes from a value. If the first format that fits is not one with short month names for any value, all values are dates. Refuted expectations: a batch of dates in May with short month names has dates, the number of dates does not depend on the batches, nor on the random sample.

- Code: dataprofiler/profilers/datetime_column_profile.py: DateTimeColumn._get_datetime_profile; dataprofiler/profilers/datetime_column_profile.py: DateTimeColumn._is_subset_datetime_column; dataprofiler/profilers/datetime_column_profile.py: DateTimeColumn.__add__
- Plan: Parsing as an arbitrary function of format and value; invariant over histories.
- Status: proved. Theorems: `C71_dates`, `C71_sound`, `C71_all_dates`, `C71_may_refuted`, `C71_batching_refuted`, `C71_sampling_refuted`.
- Note: Parsing a value with a format is an arbitrary function.
- Files: DateModel/Props

### C72 File type, encoding and number of samples

A merged profile reports the file type and encoding of the data sets that were profiled if they are the same for all, and multiple files otherwise, and the number of samples is the sum. A profile updated with several data sets reports the file type of the last one that was not empty and the last encoding known. Refuted expectations: several file types are reported as multiple files after updates, the encoding reported belongs to the file type reported, and merging with a new profile changes nothing.

- Code: dataprofiler/profilers/profile_builder.py: BaseProfiler.__add__; dataprofiler/profilers/profile_builder.py: BaseProfiler.update_profile
- Plan: Trees of merges.
- Status: proved. Theorems: `C72_merged`, `C72_updates`, `C72_several_refuted`, `C72_encoding_refuted`, `C72_empty_refuted`.
- Note: 
- Files: SizeModel/Props

### C73 Chi-squared test for homogeneity

The chi-squared test of two columns of categories has no result for fewer than two categories altogether; otherwise its degrees of freedom are one less than the categories, its statistic is infinite with p-value 0 if a column (or a category) has no values, and otherwise the sum over categories of (x*n2-y*n1)^2/(n1*n2*(x+y)); this is never negative and 0 exactly if all categories have the same share of both columns, where the p-value is 1. The order of the two columns does not matter. In the matrix of p-values of a table each pair of columns of categories has the p-value of its test, on both sides of the diagonal, the diagonal has 1, and all other entries are missing. Refuted expectations: the matrix of a merged table has the entries at the places of the columns; two columns with the same single category have a p-value.

- Code: dataprofiler/profilers/profiler_utils.py: perform_chi_squared_test_for_homogeneity; dataprofiler/profilers/profile_builder.py: _update_chi2, __add__
- Plan: Exact rationals; distribution function as a variable.
- Status: proved. Theorems: `C73_test`, `C73_homogeneous`, `C73_symmetric`, `C73_p_value`, `C73_matrix`, `C73_merge_refuted`, `C73_constant_refuted`.
- Note: Exact numbers; the distribution function is a variable, of which the p-value theorems assume that it is between 0 and 1 and 0 at 0.
- Files: ChiModel/Props

### C74 t-test of numeric columns

The t-test of two numeric columns has a result exactly if both have at least two values, their means and variances are known and not both variances are 0. Swapping the columns changes the sign of the statistic and nothing else; the statistic has the sign of the difference of the means; the conservative degrees of freedom are one less than the smaller number of values and Welch's lie between them and the sum of both numbers less two; p-values are between 0 and 1 and are 1 for equal means; nothing changes if all values are given in another unit (scaled and shifted).

- Code: dataprofiler/profilers/numerical_column_stats.py: _perform_t_test
- Plan: Stdlib reals; distribution function as a variable.
- Status: proved. Theorems: `C74_defined`, `C74_swap`, `C74_degrees`, `C74_units`, `C74_p_value`.
- Note: Exact reals; the distribution function is a variable, of which the p-value theorem assumes that it is one half at 0 and between one half and 1 above.
- Files: TTestModel/Props

### C75 A profile saved as JSON is loaded as the same profile

Profiler.save(path, 'json') followed by Profiler.load gives a structured profile with the same attributes, options, column profiles and histograms, if the column names are all integers or are strings not all of which read as integers, the options hold no null values for single columns and no null value with a regular expression flag, and there are no null replication metrics. Profiles holding a sketch, a labeler that is not the library's, and text profiles cannot be saved. Profiles with null values for single columns or flags never load, null replication metrics are never reported after loading, and names that look like numbers come back as numbers, so that the same table is refused.

- Code: dataprofiler/profilers/json_encoder.py: ProfileEncoder; dataprofiler/profilers/json_decoder.py: load_profiler; dataprofiler/profilers/profile_builder.py: BaseProfiler.load_from_dict, StructuredProfiler.load_from_dict; dataprofiler/profilers/base_column_profilers.py: load_from_dict; dataprofiler/profilers/profiler_options.py: BaseOption.load_from_dict, StructuredOptions._validate_helper
- Plan: Values as trees; encoder and decoder as recursive functions; induction on the tree.
- Status: proved. Theorems: `C75_column_profile`, `C75_compiler`, `C75_options`, `C75_column`, `C75_reload`, `C75_not_saved`, `C75_column_nulls`, `C75_flags`, `C75_metrics`, `C75_names_refuted`, `C75_mixed_names_refuted`, `C75_same_number_refuted`, `C75_column_nulls_refuted`, `C75_flags_refuted`, `C75_class_refuted`, `C75_metrics_refuted`.
- Note: json.dump and json.load are modelled on trees of values; str and int on integers are arbitrary inverse functions; numpy numbers are not told apart from Python's; labelers of the library are named by their place.
- Files: JsonSaveModel/Props

### C56 Reports of columns and their flag for removing what is switched off

The report of a column lists, in order, its name, data type, label (if labelling is enabled), whether it is categorical, its order, samples and statistics; the data type is the first whose values all match, and the statistics are those of that type, of the categories, of the labels and of the nulls, each with its own value. Asking again gives the same report. With remove_disabled_flag, graphs list exactly the statistics switched on; texts list characters and words, each if switched on, but never their counts; numbers and text columns lose all statistics but precision or vocab even if switched on; whole numbers and dates keep all even if switched off. Making a report adds the labeler's times to those of the column's type.

- Code: dataprofiler/profilers/profile_builder.py: StructuredColProfiler.report; dataprofiler/profilers/column_profile_compilers.py: report; dataprofiler/profilers/profiler_utils.py: recursive_dict_update; dataprofiler/profilers/float_column_profile.py: report; dataprofiler/profilers/text_column_profile.py: report; dataprofiler/profilers/unstructured_text_profile.py: TextProfiler.report; dataprofiler/profilers/graph_profiler.py: report
- Plan: Reports as trees with references to the dictionaries of times; exact equation for the report and for the times afterwards.
- Status: proved. Theorems: `C56_report`, `C56_times`, `C56_again`, `C56_flag`, `C56_text`, `C56_graph`, `C56_disabled_refuted`, `C56_enabled_refuted`, `C56_words_refuted`, `C56_pure_refuted`.
- Note: Values of the statistics are given; only the dictionaries of times are shared objects. NumericStatsMixin.report is not modelled: no column class uses it.
- Files: ColReportModel/Props

### C76 Setting options by name

Setting an option by a name, with or without a star, gives the value to exactly the options the name stands for, changes no other option, and neither adds nor removes options; of several names the last one that stands for an option decides. The full name of an option stands for that option alone; a star stands for the outermost options of that name. Names that could mean both kinds of data are refused before anything is set. The presets switch on and off what is documented. But a misspelt name of more than one part is silently ignored, the documented name is_numeric_stats_enabled raises, a star does not reach options inside an object that has the option, an error leaves earlier options set, and an unstarred name may change both kinds of data.

- Code: dataprofiler/profilers/profiler_options.py: BaseOption._set_helper, BaseOption.set, NumericalOptions.is_numeric_stats_enabled, TextOptions.is_numeric_stats_enabled, ProfilerOptions.set, ProfilerOptions presets; _docs/docs/source/profiler.rst
- Plan: Options as trees; setting as a recursive function; induction on the tree with a declarative relation of names and options.
- Status: proved. Theorems: `C76_one`, `C76_order`, `C76_full_name`, `C76_star`, `C76_single_unknown`, `C76_ignored`, `C76_overlap`, `C76_defaults`, `C76_presets`, `C76_unknown_refuted`, `C76_documented_refuted`, `C76_every_refuted`, `C76_error_refuted`, `C76_existing_refuted`, `C76_both_refuted`.
- Note: Values set are not themselves option objects; presets of plugins are not modelled.
- Files: OptionsModel/Props

### C77 Which options pass validation

Validation finds no error exactly in options whose switches are Boolean, whose numbers are in their ranges, whose dictionaries of nulls have texts as keys and flags as values, and in which every statistic switched on has the statistics it is computed from switched on. The options as made and all presets are valid, and switching the numeric statistics of one kind of column on or off together keeps options valid. But the options of row statistics (method of hashing, registers, switches), the switches of characters and words of free texts and the parameters of count-min sketches are not validated though errors are looked for.

- Code: dataprofiler/profilers/profiler_options.py: _validate_helper (all classes), BaseOption.validate
- Plan: Errors as lists, one function per class; equivalence with a declarative predicate on the values.
- Status: proved. Theorems: `C77_valid`, `C77_dependencies`, `C77_defaults`, `C77_switch`, `C77_rows_refuted`, `C77_switches_refuted`, `C77_cms_refuted`.
- Note: The classes of the option objects are those made by the constructors; warnings are left out.
- Files: OptCheckModel/Props

### C78 The profile of a graph

Profiling a graph reports its numbers of nodes and edges, an average degree that times the number of nodes is twice the number of edges, the number of edges inside the connected component with the most nodes (all edges if the graph is connected), and lists every attribute of the edges either as categorical (some value is whole, with a histogram of all values) or as continuous (no value is whole, with a best fitting distribution). It succeeds exactly on empty graphs and on graphs all of whose edges have the same attributes with numbers as values, each continuous one fitted with a negative log-likelihood of at most 1000. But the component reported need not have the most edges, an edge lacking an attribute raises after the counts have been changed, continuous attributes of large graphs cannot be fitted, a second graph replaces the counts while the sample size adds up, and the mean and variance reported are not those of the fitted distribution.

- Code: dataprofiler/profilers/graph_profiler.py: GraphProfiler.update, _get_avg_node_degree, _get_global_max_component_size, _get_continuous_distribution, _get_categorical_distribution, _get_categorical_and_continuous_attributes, _find_all_attributes
- Plan: Graphs as lists of nodes and edges; connectedness as an inductive relation; fits, moments and histograms are parameters.
- Status: proved. Theorems: `C78_counts`, `C78_component`, `C78_connected`, `C78_attributes`, `C78_distributions`, `C78_defined`, `C78_empty`, `C78_most_edges_refuted`, `C78_missing_refuted`, `C78_failed_refuted`, `C78_large_refuted`, `C78_again_refuted`, `C78_moments_refuted`.
- Note: Fits, moments and histograms (scipy, numpy) are parameters; sets are listed in an arbitrary order.
- Files: GraphModel/Props

### C79 Graphs read from tables of edges

A table is taken for a graph exactly if some column names mention a source, a target and a node next to an underscore, dot or hyphen, and the first such columns give the ends of edges. From a table of numbers with distinct column names, the graph read has as nodes exactly what the two columns name, exactly one edge for every pair joined by some row, with all columns of the last such row as attributes, so that the profiler of graphs accepts it. But the columns of the ends are attributes too, and texts in them raise; negative numbers become texts; without a source column the last column is taken; plain column names source and target are not recognised; one empty cell makes reading fail; a header beyond line 256 is not found.

- Code: dataprofiler/data_readers/graph_data.py: GraphData._find_target_string_in_column, csv_column_names, is_match, _format_data_networkx, check_integer
- Plan: Folds over rows with networkx's add_edge on lists; invariant relating the edges to the last row joining the pair.
- Status: proved. Theorems: `C79_columns`, `C79_match`, `C79_match_ends`, `C79_names`, `C79_graph`, `C79_profiled`, `C79_names_refuted`, `C79_text_refuted`, `C79_ends_refuted`, `C79_negative_refuted`, `C79_last_refuted`, `C79_plain_refuted`, `C79_empty_refuted`.
- Note: Delimiters, quotes and header are known; float() is a parameter; networkx is modelled by lists.
- Files: GraphDataModel/Props

### C80 Validation of data against known anomalies

After a validation that succeeds, each rule configured for a column lists in order exactly the rows whose number lies in the range or equals a number of the list (labels of the index for pandas data, positions for dask data); reports of columns that are not configured stay as they were. It succeeds exactly if the configuration is not empty, every configured column exists and has rules, only ranges and lists, the type of data is known, and every value can be compared. A report can be had exactly after some validation succeeded, and pandas and dask data numbered from zero give the same. But data with another index give different rows, lists of texts match nothing and raise on texts, reports keep columns of earlier validations, and a failed validation leaves a mixture that is then returned.

- Code: dataprofiler/validators/base_validators.py: is_in_range, is_in_list, Validator.validate, Validator.get
- Plan: State machine with the report as a dictionary, errors leave the partial report; selection as an inductive relation.
- Status: proved. Theorems: `C80_exact`, `C80_defined`, `C80_rejected`, `C80_get`, `C80_frames`, `C80_rows_refuted`, `C80_texts_refuted`, `C80_stale_refuted`, `C80_failed_refuted`.
- Note: Values are seen through float(); dask computes the same cells in order.
- Files: ValidatorModel/Props

### C81 Labels for columns by their names

The labels predicted for a list of column names are, in order, one for each name that no false positive matches at the negative threshold or above and some true positive matches above the positive threshold: the label of the first of the true positives that match best, with its score; capital letters do not matter. Parameters pass validation exactly under a stated condition, and a model has the given parameters and defaults for the others. But names without a label leave no trace, so labels cannot be assigned to names; without labels prediction raises; labels need not be labels of the model, and the only label of a model is rejected; entries without attribute and label are accepted, fractional thresholds are not; no parameter can be set without giving the true positives again.

- Code: dataprofiler/labelers/column_name_model.py: ColumnNameModel.__init__, _validate_parameters, _compare_negative, _model, predict; dataprofiler/labelers/base_model.py: BaseModel.set_params
- Plan: The scorer is a parameter; argmax as a recursive function; answers as an inductive relation over the names.
- Status: proved. Theorems: `C81_predict`, `C81_answers`, `C81_case`, `C81_valid`, `C81_new`, `C81_set`, `C81_default_refuted`, `C81_set_refuted`, `C81_labels_refuted`, `C81_entries_refuted`, `C81_aligned_refuted`, `C81_include_refuted`.
- Note: The scorer of rapidfuzz is a parameter; texts are ASCII.
- Files: ColNameModel/Props

### C66 Labels of samples become labels of characters

When labeled samples are joined to one text, the text holds each sample where its span says, every entity other than of separators is the span of a sample with a label other than the default, and every character of a sample gets the label of the sample and every character of a separator the label for padding, provided the last sample is not empty; a single sample always gets its own label throughout. But before an empty last sample the separator gets the default label, and separators need a label called PAD whatever the parameter for padding says.

- Code: dataprofiler/labelers/data_processing.py: StructCharPreprocessor.convert_to_unstructured_format, CharPreprocessor._process_batch_helper
- Plan: Join and entities as recursive functions with the running start; assignment to slices of the label buffer.
- Status: proved. Theorems: `C66_labels`, `C66_single`, `C66_spans`, `C66_entities`, `C66_last_refuted`, `C66_pad_refuted`.
- Note: Samples are texts; characters are of any type.
- Files: StructModel/Props

### C82 The row with the names of the columns

In a delimited text with cells other than words, the header that is guessed is the last row of which more than nine tenths of the cells are words or empty, fewer than half are empty and fewer than a tenth differ in type from the row above, such that no row above has more data and none differs; and there is a header only if some row differs. So a row of names above a row in which at least a tenth and at least one of the cells is of another type is the header whatever follows, and rows that are all alike have none. In a table of words the first row is the header exactly if two cells of a column differ by two or more in the number of words. But in a table of eleven columns with one of numbers the first row of data is taken for the header; names above words are missed, and words without names get a header.

- Code: dataprofiler/data_readers/csv_data.py: CSVData._guess_header_row; dataprofiler/data_readers/data_utils.py: detect_cell_type, get_delimiter_regex
- Plan: The two loops over the rows carry invariants over the rows read so far; statements about tables built from fields, with the splitting at delimiters outside quotes proved to undo the building.
- Status: proved. Theorems: `C82_exact`, `C82_empty`, `C82_defaults`, `C82_typical`, `C82_wide`, `C82_alike`, `C82_words`, `C82_wide_refuted`, `C82_names_refuted`, `C82_data_refuted`.
- Note: Default thresholds, delimiters of one character; what dateutil, float and isupper say of a cell are parameters.
- Files: CsvModel, CsvCells, CsvHeaderProps, CsvWordsProps

### C83 Which texts are recognised as delimited

A text is recognised with a delimiter exactly if, below the header, more than three of the lines looked at have two or more characters, and the most common number of delimiters outside quotes (the first such number, and a positive one unless there is no delimiter) is shared by all but 2^p of them, if the number of lines looked at has p+1 digits. So tables of two or more columns with four rows below the header are recognised, and lines of one character or fewer than four lines never. A delimiter and header that are given are what the file is read with; a delimiter of one character that is not blank is dropped on reading exactly if every line ends with it and has no other, one of several characters, not all blank, only if all lines are empty. But empty lines loosen the test so that two of four lines, or one of five, are enough; only the beginning of a file of ten lines counts; a quote that is given is not used if the delimiter is guessed; a header and two rows are no match; a line of one tab in a file delimited by tabs, or of two or three blanks in one delimited by two blanks, makes reading fail.

- Code: dataprofiler/data_readers/csv_data.py: CSVData.is_match, _load_data_from_file; dataprofiler/data_readers/data_utils.py: get_delimiter_regex, load_as_str_from_file
- Plan: Invariant of the dictionary of counts, including the order of its keys; first maximum; number of digits.
- Status: proved. Theorems: `C83_exact`, `C83_same`, `C83_table`, `C83_few`, `C83_single`, `C83_given`, `C83_other`, `C83_guessed`, `C83_trailing`, `C83_long`, `C83_blank_refuted`, `C83_none_refuted`, `C83_beginning_refuted`, `C83_quote_refuted`, `C83_small_refuted`, `C83_tab_refuted`, `C83_blanks_refuted`.
- Note: Delimiters of one character; whether a file is JSON, Parquet or AVRO is a parameter.
- Files: CsvModel, CsvMatchProps

### C84 The delimiter that is guessed

Splitting a line at delimiters outside quotes loses nothing, and undoes joining for fields in quotes or without delimiters and quotes. The delimiter that is guessed is comma, tab or a character of the text than which fewer than twenty are more frequent, never a quote or line end; in the rows looked at (all if there are at most 25) no row has more delimiters than a row below, some row has one, no two neighbouring cells are texts if the delimiter is a letter or the only blank of the row, and no cell is a whole number if it is a digit. Of all candidates for which this holds it is the first with the most columns in the last row, counted five times for comma and tab; there is no guess exactly if it holds for none. A table of n columns in at most 25 rows is taken to be delimited by commas unless another character gives more than 5 n columns in the last row, or tab more than n. But the same text may get different delimiters by chance, rows below the 25th do not matter, and a table delimited by commas with many words is taken to be delimited by blanks.

- Code: dataprofiler/data_readers/csv_data.py: CSVData._guess_delimiter_and_quotechar; dataprofiler/data_readers/data_utils.py: get_delimiter_regex, detect_cell_type
- Plan: Stable insertion sort for the vocabulary; the loop over the rows from the bottom; random draws and the sniffer are parameters.
- Status: proved. Theorems: `C84_join`, `C84_fields`, `C84_candidate`, `C84_shape`, `C84_accepted`, `C84_best`, `C84_none`, `C84_rows`, `C84_comma`, `C84_random_refuted`, `C84_late_refuted`, `C84_blanks_refuted`.
- Note: csv.Sniffer, dateutil, float, isupper, isalpha and random.choices are parameters.
- Files: CsvModel, CsvCells, CsvDelimProps

### C85 Which reader is made for data

A file or buffer without a type is read by the first of the readers for JSON, graphs, CSV, Parquet, AVRO and text that recognises it, with the options given and what this reader added to them; with a type only the reader of that type is asked, and it is an error if it does not recognise the file; data in memory goes to the reader of its type without any file being looked at; neither or both of file and data, data without a type and unknown types (also in capitals) are errors. What is behind an address is read as a buffer with the same content. Every file is read by some reader if no test raises. But an error in one test stops the search although a later reader takes the file, and with addresses of S3 the storage options are taken out of the user's dictionary, so that the same call fails the second time.

- Code: dataprofiler/data_readers/data.py: Data.__new__; dataprofiler/data_readers/data_utils.py: is_valid_url, S3Helper.is_s3_uri
- Plan: A fold over the six classes with tests and constructors as parameters; the dictionary of the user is part of the result.
- Status: proved. Theorems: `C85_arguments`, `C85_first`, `C85_given`, `C85_unknown`, `C85_data`, `C85_always`, `C85_kept`, `C85_remote`, `C85_s3`, `C85_prefix`, `C85_pop_refuted`, `C85_stops_refuted`.
- Note: Tests and constructors of the classes, urllib and boto3 are parameters; options are dictionaries.
- Files: ReaderModel/Props

### C86 Options of readers

The options of a reader of delimited data pass exactly if header is auto, None or a whole number from 0, the delimiter a text or None, the format dataframe or records, selected columns a list of texts, and samples per line and rows whole numbers from 0; the reader then has what is given and the documented defaults, and a table in memory has comma and double quote unless others are given. A format can be set exactly if the reader has it, in any case, and the data is then given in it; an encoding exactly if it is one of four. A file that is not recognised cannot be loaded anew. But on loading anew header, delimiter and quote stay those of the file before whatever options are given, and the dictionary given is changed; 0 samples per line pass and no records can be had; truth values pass as numbers; for readers other than CSV formats that do not exist fail only when data is asked for; a graph cannot be asked whether it is structured.

- Code: dataprofiler/data_readers/csv_data.py: CSVData.__init__, _check_and_return_options, reload, _get_data_as_records; dataprofiler/data_readers/base_data.py: BaseData.data, data_format, file_encoding, reload
- Plan: Readers as records of their attributes; options as dictionaries.
- Status: proved. Theorems: `C86_exact`, `C86_file`, `C86_bad`, `C86_table`, `C86_reload`, `C86_refuse`, `C86_format`, `C86_start`, `C86_encoding`, `C86_reload_refuted`, `C86_zero_refuted`, `C86_late_refuted`, `C86_graph_refuted`.
- Note: Guessing of delimiter and header (C82, C84) are parameters; texts are ASCII.
- Files: ReaderModel/Props

### C87 Size limit of downloads

A download gives exactly the bytes sent, in order; it fails exactly if the declared length is one gigabyte or more or more than 131072 pieces are sent. So if pieces are full, files of up to a gigabyte are taken and larger ones never. But a file of exactly a gigabyte is refused if its length is declared and taken if not, and a file of 128 kilobytes that is sent in small pieces is refused as larger than a gigabyte.

- Code: dataprofiler/data_readers/data_utils.py: url_to_bytes
- Plan: Invariant of the counter of bytes over the pieces.
- Status: proved. Theorems: `C87_exact`, `C87_size`, `C87_equal_refuted`, `C87_small_refuted`.
- Note: requests is a list of pieces; errors of the connection are left out.
- Files: ReaderModel/Props

### C88 Differences of columns and of tables

The difference of two columns holds name, type, order, whether they are categorical, labels (if both have label profiles) and statistics. Sample size, numbers and places of nulls are always compared; numbers are compared exactly if both columns have the same type, categories exactly if both have a profile of categories, averages and representation of labels exactly if both have labels; each entry is the difference of the values of the same name and nothing else is in it. Columns can be compared exactly if they have a type, profiles of categories or labels in common, and a column or table compared with itself shows no difference. Tables are compared as wholes, and column by column exactly if both have the same names in the same order; the schema shows which names are only in one of them and where. But with a column of numbers in one table and of text in the other, and neither categories nor labels profiled, comparing tables is a KeyError, and psi of the numbers is replaced by that of the categories.

- Code: dataprofiler/profilers/profile_builder.py: StructuredColProfiler.diff, StructuredProfiler.diff, BaseProfiler.diff; dataprofiler/profilers/column_profile_compilers.py: BaseCompiler.diff, ColumnPrimitiveTypeProfileCompiler.diff, ColumnStatsProfileCompiler.diff, ColumnDataLabelerCompiler.diff; dataprofiler/profilers/numerical_column_stats.py: diff; dataprofiler/profilers/categorical_column_profile.py: diff; dataprofiler/profilers/data_labeler_column_profile.py: diff
- Plan: Layers of the recursive update of dictionaries; values are compared with the functions of C25; tests are parameters.
- Status: proved. Theorems: `C88_keys`, `C88_entries`, `C88_base`, `C88_numeric`, `C88_special`, `C88_categories`, `C88_psi`, `C88_labels`, `C88_representation`, `C88_only`, `C88_error`, `C88_succeeds`, `C88_self`, `C88_global`, `C88_columns`, `C88_schema`, `C88_table_succeeds`, `C88_table_self`, `C88_always_refuted`, `C88_psi_refuted`.
- Note: Values of the profiles are given; t-test, chi-squared and psi are parameters (C49, C73, C74).
- Files: DiffReportModel/Props, DiffTableProps

### C89 Profiles of free text as a whole

For data with distinct row labels every update examines, in a random order, all lines or the smallest multiple of the sample size that holds the required number of lines with text (exactly the sample size if none is required, and everything for up to 5000 lines by default). After any sequence of updates and merges the number of samples used is that of the lines examined, the empty line count that of the blank lines among them, exactly the other ones are given to the statistics (in the order of the data), no line is used twice, and the memory size is that of all lines of all data. If every batch is examined completely, the counts and the lines do not depend on how data were split into updates and merged profiles. Merges work exactly if both profiles have data, the same name and the same profiles enabled, in either order; the sample is up to five lines with text of the last batch, or of both samples without repetition. An update fails exactly for tables with no or several columns and then changes nothing. But with equal row labels blank lines and lines that were not sampled are profiled and lines with text are counted as empty; a subsample is profiled without the warning; a new profile can neither be merged nor reported; the same text from a list and from a table cannot be merged, though the table can be given as an update.

- Code: dataprofiler/profilers/profile_builder.py: UnstructuredProfiler.__add__, report, _clean_data_and_get_base_stats, _update_base_stats, _update_profile_from_chunk; BaseProfiler.update_profile, __add__; dataprofiler/profilers/column_profile_compilers.py: BaseCompiler.__add__; dataprofiler/profilers/profiler_utils.py: shuffle_in_chunks, get_memory_size
- Plan: The loop over the chunks of C01 as a fold; induction over histories of updates and merges.
- Status: proved. Theorems: `C89_update`, `C89_sample`, `C89_small`, `C89_update_outcome`, `C89_merge_outcome`, `C89_merge_comm`, `C89_sample_lines`, `C89_sample_merge`, `C89_settings`, `C89_history`, `C89_complete`, `C89_complete_small`, `C89_report`, `C89_unique_refuted`, `C89_sampled_refuted`, `C89_warning_refuted`, `C89_memory_refuted`, `C89_neutral_refuted`, `C89_names_refuted`, `C89_names_update`.
- Note: Lines, blankness and sizes in bytes are parameters; row labels are integers; the statistics of the lines are C29 and C32.
- Files: UnstructModel/Proofs/Props

### C90 The histogram in the report of a numeric column

After any history of updates, reports and merges the report of a numeric column with data shows a histogram whose counts add up to the number of values, unless the profile has a number of bins set by the user and was merged and not updated since: then the report is a KeyError. Which method is shown: the one with the smallest loss (the first of them if no loss is zero), exactly if no loss is zero or the last one is. After an update the histogram has as many bins as the method suggests - one if all values are equal, else the number of the user, else the estimate but at most 100000 - and is the stored histogram or a rebinning of it; a merged profile has the bins its width asks for, without limit. A report repeated is the same, never changes the data kept nor what is computed from them, and does not influence the next one unless a method suggests exactly as many bins as are stored. But then later reports show another histogram than without it; a zero loss is taken for none, so a worse method can be shown; and a profile merged with an empty one can lose its histogram for good.

- Code: dataprofiler/profilers/numerical_column_stats.py: NumericStatsMixin.__init__, _add_helper_merge_profile_histograms, _get_histogram, _merge_histogram, _update_histogram, _histogram_for_profile, _get_best_histogram_for_profile, _histogram_bin_error; dataprofiler/profilers/histogram_utils.py: _calculate_bins_from_profile
- Plan: Slots that are own histograms or the stored one; an invariant over histories; estimates and np.histogram are parameters with their defining properties.
- Status: proved. Theorems: `C90_histogram_total`, `C90_merged_counts_have_no_report`, `C90_merged_user_count`, `C90_choice`, `C90_choice_first`, `C90_report_again`, `C90_bins`, `C90_bins_merged`, `C90_user_count`, `C90_report_keeps_data`, `C90_report_neutral`, `C90_merge_with_empty`, `C90_smallest_loss_refuted`, `C90_report_changes_later_refuted`, `C90_bin_limit_after_merge_refuted`.
- Note: Numbers are exact; np.histogram and the estimates of bins are parameters with their defining properties; widths from merged profiles are C91.
- Files: RepHistModel/Proofs/Proofs2/Props/Examples

### C91 Numbers of bins of merged numeric columns

For merged profiles the square root rule gives the smallest number of bins whose square is at least the number of values, Rice's rule the smallest whose cube is at least eight times it, Sturges' rule one more than the smallest exponent of two that reaches it, and auto the larger one of Freedman and Diaconis and Sturges. Freedman and Diaconis give the smallest number of bins no wider than twice the interquartile range over the cube root of the number of values, Scott's rule the same with its width from the deviation, and Doane's rule the number of its formula rounded up. Every rule gives at least one bin, for all data, and other rules than the seven are a ValueError. Shifting values or changing their unit changes no number of bins. But the limit of 100000 bins does not hold: with eight values the numbers of fd and auto exceed every bound.

- Code: dataprofiler/profilers/histogram_utils.py: _calculate_bins_from_profile, _calc_*_bin_width_from_profile, _ptp
- Plan: Real numbers of the standard library; the ceiling is characterised by its two inequalities.
- Status: proved. Theorems: `C91_sqrt`, `C91_rice`, `C91_sturges`, `C91_auto`, `C91_fd`, `C91_scott`, `C91_doane`, `C91_at_least_one_bin`, `C91_unit_free`, `C91_limit_refuted`.
- Note: Real numbers without rounding; NaN is None.
- Files: BinWidthModel/Props/Exact

### C92 Which cells count as null

A cell is null exactly if one of the null values, read as a pattern in which case is ignored, matches all of its text, a line break at the end left aside. For null values that are words without special characters this is equality up to the case of letters; by default exactly empty cells, nan, none, null and rows of blanks, dashes or underscores are null. Null values given for a column are added to the general ones, and so are those for the column whose position it takes in a later table; neither order nor flags of null values matter, and more null values give more null cells if there was at least one. But the flags given with a null value are ignored, so that case never matters; without any null value empty cells are null, and adding the first one makes them data; null values are patterns, so that n.a matches nba; and one malformed null value makes every profile fail.

- Code: dataprofiler/profilers/profile_builder.py: StructuredColProfiler.__init__, clean_data_and_get_base_stats; StructuredProfiler._update_profile_from_chunk
- Plan: Regular expressions with literals, dot, star and bar as an inductive relation and a matcher; matching of the joined pattern is proved to be matching of one of its parts.
- Status: proved. Theorems: `C92_alternatives`, `C92_error`, `C92_words`, `C92_default`, `C92_flags`, `C92_columns`, `C92_none`, `C92_more`, `C92_case_refuted`, `C92_none_refuted`, `C92_more_refuted`, `C92_literal_refuted`.
- Note: Texts are ASCII; patterns have literals, dot, star and bar only.
- Files: NullCellModel/Props

### C93 Numeric columns with statistics switched off

If minimum, maximum, sum, variance, numbers of zeros or of negative values are switched off in some of the profiles of a history of updates and merges, the statistics that are on in all of them are the same as if everything were on, and the others are as in a new profile; exactly the ones on in all profiles are computed further on. Median, mode and median absolute deviation are on exactly if they are on in all profiles, bias is corrected exactly if it is in all of them, and the number of modes is the largest one; merging in the other order gives the same settings. Options with variance and without sum, which validation refuses, are a KeyError at the first value. But with the sum off the mean is shown as 0, and a number of quantiles set in both profiles is lost by merging them: it is 1000 afterwards.

- Code: dataprofiler/profilers/numerical_column_stats.py: NumericStatsMixin.__init__, _add_helper, _update_helper, _get_min, _get_max, _get_sum, _get_variance, _get_num_zeros, _get_num_negatives; dataprofiler/profilers/base_column_profilers.py: _filter_properties_w_options, _perform_property_calcs, _merge_calculations
- Plan: A refinement: the state with switches is related to that of C08-C10 over all histories.
- Status: proved. Theorems: `C93_statistics`, `C93_calculations`, `C93_settings`, `C93_quantiles`, `C93_symmetric`, `C93_needs_sum`, `C93_mean_refuted`, `C93_quantiles_refuted`.
- Note: Exact rational numbers; skewness, kurtosis and histogram are left out.
- Files: SwitchModel/Props

### C94 Making and updating profilers

Without a type given, a profiler is made for graphs exactly if the data are a graph, for tables exactly if they are a list, a series, a data frame or a file that gives data frames, and for text if they are a text or another file; other data are an error. A type given is taken whatever the data. The profiler uses the options object given for its kind, and a new object if none is given; options of another kind are refused, except for graphs, where all options are ignored. If labels are on and the options have no labeler, one is loaded and kept in the options object, or labels are switched off in it if loading fails; nothing else in any options object is changed. Text files given as tables are a TypeError, a number of required values that is no whole number a ValueError. Updates take files, lists, series, data frames and, for profilers of text, texts; they leave the profile as it was for empty data and refuse everything else with it unchanged. Refuted expectations: labels are computed if they are on in the options as the user made them and the labeler can be loaded; a profiler that cannot be made leaves the options as they were; zero as the number of required values overrides the setting of the profiler.

- Code: dataprofiler/profilers/profile_builder.py: Profiler.__new__, BaseProfiler.__init__, BaseProfiler.update_profile, StructuredProfiler.__init__, UnstructuredProfiler.__init__; dataprofiler/profilers/graph_profiler.py: GraphProfiler.update; dataprofiler/data_readers/*.py: is_structured
- Plan: Options objects in a heap; outcome by cases and the change of the heap by induction over sequences of making profilers.
- Status: proved. Theorems: `C94_kind`, `C94_given`, `C94_given_tables`, `C94_outcome`, `C94_graph`, `C94_options`, `C94_stays`, `C94_shared`, `C94_default`, `C94_update`, `C94_takes`, `C94_text_files`, `C94_refused`, `C94_labels_refuted`, `C94_failure_refuted`, `C94_zero_refuted`.
- Note: Loading of labelers, validation of options (C77), sample size (C48) and the profiling of data are parameters; subclasses of profilers are left out.
- Files: FactoryModel/Props

### C95 Merging tables profiled with different options

Two tables can be merged exactly if both have columns that match, with the same options for row statistics, the same way of counting unique rows (with HyperLogLog the same seed and registers) and the same column profiles; otherwise a ValueError is raised. The result has the options and columns of the left table, and its rows and column statistics are those of both. After any history of updates, merges and saving and loading, correlations, chi-squared tests and null replication metrics are of batches of the history only and of none twice; chi-squared tests are of all batches if they are on in all profiles, and so are correlations and metrics if moreover no profile was saved and loaded (and matrices exist and have the same columns), batches of nulls only left aside. The report fails exactly if metrics are on for the left table and were lost by a merge with a table without them or by saving and loading, until the next rows. Refuted expectations: the order of merging does not matter for whether a report can be made; a profile saved and loaded can be merged with what it could be merged with before; correlations and metrics of a report are of the rows it counts (after a merge with a table without them, the next update begins them anew).

- Code: dataprofiler/profilers/profile_builder.py: StructuredProfiler._add_error_checks, BaseProfiler.__add__, StructuredProfiler.__add__, StructuredColProfiler.__add__, StructuredProfiler.report, StructuredProfiler._update_correlation, StructuredProfiler._merge_correlation, StructuredProfiler._update_null_replication_metrics, StructuredProfiler._merge_null_replication_metrics, StructuredProfiler._update_profile_from_chunk, StructuredProfiler.save; dataprofiler/profilers/column_profile_compilers.py: BaseCompiler.__add__
- Plan: A statistic is the list of batches it is of; induction over histories.
- Status: proved. Theorems: `C95_outcome`, `C95_errors`, `C95_merged`, `C95_history`, `C95_sound`, `C95_chi2`, `C95_corr`, `C95_metrics`, `C95_metrics_merge`, `C95_report`, `C95_restart`, `C95_order_refuted`, `C95_reload_refuted`, `C95_covers_refuted`.
- Note: Whether schemas match (C18), batches have correlations and matrices fit (C22) are parameters; the values of the statistics are C22, C41, C63 and C73.
- Files: MergeTableModel/Props

### C96 Training a labeler: which samples train and which validate

A call with valid data and settings trains for exactly the number of epochs asked for, and its result has one entry for each. Every sample keeps its own label. The samples are split once: in every epoch the same samples train, each exactly once and in a new order, and the same other ones validate, so that no sample that validates is ever used to train. The number to train is the share asked for rounded down, at least one and at most all; without a share for validation all samples train and none validates. If at least two samples train, every sample is used. Invalid calls - data of a refused type, no data, different numbers of samples and labels, a share outside of 0 to 1, pipelines that differ if that is an error - fail with the labeler unchanged. No epochs train nothing but still set the labels. Refuted expectations: every sample given is used (if the share leaves one sample to train, there is no validation and all others are dropped); a call that fails leaves the labels as they were.

- Code: dataprofiler/labelers/base_data_labeler.py: TrainableDataLabeler.fit
- Plan: Epochs by induction; the parts are permutations of the two parts of one permutation.
- Status: proved. Theorems: `C96_rounds`, `C96_sizes`, `C96_all`, `C96_invalid`, `C96_no_epochs`, `C96_unused_refuted`, `C96_failure_refuted`.
- Note: Model, preprocessor, random permutations and the check of the pipeline (C45) are parameters; numbers are exact.
- Files: FitModel/Props

### C97 Labelers on disk

Saving a labeler succeeds exactly if the directory exists and every parameter of its three parts can be written as JSON (generators of random numbers only in the postprocessors that save their state); no other directory is touched and none is made. What was saved is loaded, whatever was in the directory before: the same classes, parameters, weights and states of generators, and the labels as texts; so the last successful save decides alone. The labeler loaded equals the one saved exactly if all labels are texts and the postprocessor has no generator that is compared (the one of StructCharPostprocessor is not). After a save that fails in an existing directory nothing can be loaded from it. Objects given for loading must be of the very classes saved; the first wrong one decides the error. Refuted expectations: a labeler saved and loaded equals the one saved (regex postprocessors); a failing save leaves the labeler saved before; as many labels are loaded as were saved; making another class of models does not change which class is loaded (names are compared in lower case); equal labelers have the same weights.

- Code: dataprofiler/labelers/base_data_labeler.py: BaseDataLabeler.__eq__, _load_parameters, _load_model, _load_preprocessor, _load_postprocessor, _load_data_labeler, _save_data_labeler, save_to_disk; dataprofiler/labelers/data_processing.py: BaseDataProcessor.__eq__, load_from_disk, _save_processor; StructCharPostprocessor.__eq__, _save_processor; RegexPostProcessor._save_processor; StructRegexPostProcessor._save_processor; dataprofiler/labelers/base_model.py: BaseModel.__eq__, _register_subclass, get_class, set_label_mapping; dataprofiler/labelers/regex_model.py: save_to_disk, load_from_disk; dataprofiler/labelers/column_name_model.py: save_to_disk, load_from_disk; dataprofiler/labelers/character_level_cnn_model.py: __eq__, save_to_disk, load_from_disk
- Plan: Directories as files that are absent, broken or have contents; dumping and reading are inverse by induction over the parameters.
- Status: proved. Theorems: `C97_save`, `C97_roundtrip`, `C97_equal`, `C97_last`, `C97_failed`, `C97_options`, `C97_equal_refuted`, `C97_atomic_refuted`, `C97_labels_refuted`, `C97_case_refuted`, `C97_weights_refuted`.
- Note: JSON values are texts without tuples; what constructors accept is a parameter; CharLoadTFModel is left out.
- Files: LabDiskModel/Props

### C98 The character model: labels and predictions

Labels given to the character model as a list get the number zero for PAD and 1, 2, ... in their order; those given as a dictionary keep their numbers and PAD is added with zero; a dictionary that gives zero to another label or PAD another number, or labels without the default label, are a ValueError. A call that fails changes nothing. Once there is a trained, saved or reset net, predictions are made exactly if there are as many label numbers as when it was last built and the default label has the number the default label had then; otherwise the call fails, and without a net always. Every sample gets one list of predictions, in the order of the samples, as long as the sample and equal to what the net gave for it, and so for confidences, for every size of batches; texts are cut and joined into batches of that size, so on the whole way from texts to predictions each character gets the prediction made at its place. Refuted expectations: predictions are refused after labels are renamed without training; PAD has the number zero; a default label that is no label is refused; predictions after adding a label need training (saving is enough); a smaller batch before the last one gives as many predictions as samples.

- Code: dataprofiler/labelers/character_level_cnn_model.py: set_label_mapping, _need_to_reconstruct_model, save_to_disk, _construct_model, reset_weights, _reconstruct_model, fit, predict; dataprofiler/labelers/data_processing.py: CharPreprocessor._process_batch_helper, CharPostprocessor.match_sentence_lengths
- Plan: Invariant of the arrays over the batches; the sizes of batches by an invariant of cutting and joining; composed with the round trip of texts.
- Status: proved. Theorems: `C98_list`, `C98_dict`, `C98_accepts`, `C98_failed`, `C98_builds`, `C98_refused`, `C98_no_net`, `C98_order`, `C98_batches`, `C98_texts`, `C98_renamed_refuted`, `C98_pad_refuted`, `C98_default_refuted`, `C98_saved_refuted`, `C98_short_batch_refuted`.
- Note: The net is a parameter that returns a row for every sample; training never fails.
- Files: CnnModel/Props

### C99 Data handed to labelers

Rows of equal length, arrays and tables are predicted cell by cell, row after row: the cell in row i and column j of a table with w columns is sample i*w+j. Cells are what they are in the table, unless the table has numbers only and both whole numbers and floats, which makes all whole numbers floats. Data of other types, and readers of such, are a TypeError. Training a labeler on a table takes every cell once as a sample, column after column, labelled with the name of its column; the labels are the names of the columns as texts, each once and in their order, with the numbers from one on and zero for PAD. With distinct names, the default label among them and valid arguments it trains for the number of epochs given, every cell (if there are not just two) used exactly once in every epoch, to train or to validate, with its own label. Training always fails if the default label is not the name of a column. A directory is written only with the labeler that is returned. Refuted expectations: any table can be trained on with the shipped labeler (one without a column UNKNOWN is refused unless a default label is given); PAD has the number zero (a column called PAD takes another one); the text of a cell does not depend on other columns; rows of different lengths are predicted cell by cell.

- Code: dataprofiler/labelers/base_data_labeler.py: _check_and_return_valid_data_format, predict; dataprofiler/labelers/data_labelers.py: train_structured_labeler
- Plan: Positions by induction over rows and columns; composed with the training of labelers (C96) and the labels of the character model (C98).
- Status: proved. Theorems: `C99_rows`, `C99_position`, `C99_ragged`, `C99_other`, `C99_table`, `C99_cells`, `C99_labels`, `C99_default`, `C99_trains`, `C99_data`, `C99_saved`, `C99_plain_refuted`, `C99_pad_refuted`, `C99_cell_refuted`, `C99_ragged_refuted`.
- Note: Texts of numbers, preprocessor, model and saving (C97) are parameters; whole numbers become floats without rounding; names on several levels are left out.
- Files: TrainTableModel/Props

### C100 Which cells are numbers

A cell counts as a float exactly if, white space and a sign apart, it is nan, inf or infinity in any capitals or a decimal number: digits with at most one underscore between two of them, a point among or beside them, and an exponent. Words are never integers. Every whole number up to 2^53 counts as an integer however it is written, and every number from 2^52 on does, up to the largest double. What counts as an integer is within one part in 2^53 of a whole number (half of that is enough) or at most 2^-1075 (which always is); so a fraction written with at most 15 digits counts as one only if it is as small as that. White space around a cell makes no difference, every integer is a float, and counts of batches add up. Refuted expectations: cells that count as integers are whole numbers (0.99999999999999999999 does), or zero or at least a half (1e-400); all whole numbers are integers (1e400 is not).

- Code: dataprofiler/profilers/numerical_column_stats.py: is_float, is_int; dataprofiler/profilers/float_column_profile.py: _is_each_row_float; dataprofiler/profilers/int_column_profile.py: _is_each_row_int
- Plan: A grammar against the scanner, by induction; rounding to nearest even in whole numbers against inequalities of fractions.
- Status: proved. Theorems: `C100_float`, `C100_one_number`, `C100_int_reads`, `C100_words`, `C100_blanks`, `C100_large`, `C100_whole`, `C100_close`, `C100_near`, `C100_tiny`, `C100_digits`, `C100_counts`, `C100_whole_refuted`, `C100_zero_refuted`, `C100_huge_refuted`.
- Note: Texts in ASCII; the reading of texts by float() of Python is modelled after its documentation and rounds correctly.
- Files: NumTextModel/Props

### C101 Tables from JSON

A list of records in one document gives a table with one row per record, a column for every path to a value (keys joined by dots) and in every cell the value under that path, missing only if the record has none; for any keys at all no cell is made up and none is missing that has a value. The same records as lines give a column per key at the top, with objects as values. Both tables agree if no record has an object in it. Lists give numbered columns with the values at their positions, other values one column. A list is refused if and only if some value does not have the type of the first, except for truth values after a whole number. Selecting columns is a KeyError exactly if one is missing and otherwise keeps the cells. A file is recognised if and only if it is one document or its first thousand lines can be decoded and at least half of them (the end counted as a line) are JSON with a colon or bracket, and is then loaded if all of it can be decoded. Refuted expectations: records give the same table as a document and as lines; every key has a column (not that of an empty object); every value is in the table (keys with dots collide); the order of values does not decide whether they are accepted; half the lines are enough; every recognised file gives a table (the document 5 does not).

- Code: dataprofiler/data_readers/data_utils.py: json_to_dataframe; dataprofiler/data_readers/json_data.py: JSONData.is_match, JSONData.data
- Plan: Induction over JSON values: flattened records against paths to leaves; injectivity of joined keys; scans of lines as counts over prefixes.
- Status: proved. Theorems: `C101_document`, `C101_any_keys`, `C101_lines`, `C101_flat`, `C101_lists`, `C101_values`, `C101_mixed`, `C101_mixed_error`, `C101_selected`, `C101_rows`, `C101_recognised`, `C101_loaded`, `C101_same_table_refuted`, `C101_every_key_refuted`, `C101_every_value_refuted`, `C101_order_refuted`, `C101_half_refuted`, `C101_table_refuted`.
- Note: json_normalize and DataFrame of pandas are modelled after their documentation; the texts of cells are left out.
- Files: JsonTableModel/Props

### C102 Tables read in part

If every line of a delimited file is a record by itself, reading with a number of rows gives the names of the file and that many of its rows (all if there are fewer), none twice; without a header at most that many, and exactly as many if no line is blank. If the file has no more lines than asked for, the table is that of the whole file, whatever quotes it has. In every case what is read are lines of the file, each at most once, the line of the header first. Asking for zero rows reads them all. A sample of a Parquet file has the rows asked for in the order of the file, numbered from 0; all of it has every row of every group in order, with labels from 0 in every group, distinct exactly if at most one group has rows. Refuted expectations: rows of a sample are rows of the file, and a file that can be read can be sampled (not with line feeds inside of quotes); the names are those of the file; a sample has as many rows as asked for (blank lines are drawn and then left out); rows of Parquet files have distinct labels.

- Code: dataprofiler/data_readers/csv_data.py: CSVData(options sample_nrows); dataprofiler/data_readers/parquet_data.py: ParquetData(options sample_nrows); dataprofiler/data_readers/data_utils.py: rsample, read_csv_df, sample_parquet, read_parquet_df
- Plan: The parser is cut at ends of lines by induction; positions of sampled lines (C02) become positions of rows.
- Status: proved. Theorems: `C102_sample`, `C102_sample_no_header`, `C102_small_file`, `C102_lines`, `C102_zero_rows`, `C102_parquet`, `C102_parquet_labels`, `C102_parquet_sample`, `C102_rows_refuted`, `C102_readable_refuted`, `C102_count_refuted`, `C102_names_refuted`, `C102_labels_refuted`.
- Note: read_csv of pandas is modelled as records of fields, by its documentation and tokenizer; types, selected columns and records of different lengths are left out.
- Files: TablePartModel/Props

### C103 The score that labelers are trained by

The score that training shows does not depend on how samples are put into batches or on their order, and every value is between 0 and 1 for true values between 0 and 1 and weights that are not negative. A class has F-beta of its weighted counts: with T for predicted and true, P for predicted but not true and N for true but not predicted it is (1+b^2)T / ((1+b^2)T + b^2 N + P), and 0 if T is 0; it is 1 if and only if something is predicted right and nothing wrong. Predicted are the values above the threshold or, without one, those equal to the largest value of the row unless they are as good as zero. The macro average is the mean over all classes, the weighted one weighs by true labels. If each row has one label and one largest value, the scores are those of the report that evaluates predictions and the micro average is the share of rows predicted right, for every beta. Averages other than the four, beta or thresholds that are no floats, a beta not above 0 and a threshold outside (0,1] are refused, and only these. Refuted expectations: right predictions for all rows give the macro score 1 (a class without rows counts as 0); a row has one prediction (ties count for all, zeros for none).

- Code: dataprofiler/labelers/labeler_utils.py: FBetaScore, F1Score; dataprofiler/labelers/classification_report_utils.py: precision_recall_fscore_support
- Plan: Counts as sums over all rows, independent of batches by induction; algebra of F-beta over the rationals; agreement with the model of C44 through the confusion matrix.
- Status: proved. Theorems: `C103_batches`, `C103_range`, `C103_value`, `C103_perfect`, `C103_averages`, `C103_accuracy`, `C103_report`, `C103_make`, `C103_made`, `C103_make_errors`, `C103_perfect_macro_refuted`, `C103_one_prediction_refuted`.
- Note: Exact rational numbers instead of 32-bit floats.
- Files: FBetaModel/Props

### C104 Plots of histograms and of missing values

Without a choice the histograms of all columns of numbers are shown in the order of the table; chosen by name, for every name in turn those of the columns with this name in any capitals; chosen by position, in the order given, with negative positions from the end. Each is shown once for every time it was chosen, in its own field, with bars as high as the counts of its histogram; the grid is the smallest near-square that fits and has less than a row of empty fields. Unknown names are a ValueError, positions out of range an IndexError, both choices at once, lists with other things in them and other arguments a ValueError, and no column of numbers gives no figure. In plots of missing values a column has a background as long as its sample and bars for each kind of missing value; a kind has one colour in the whole plot, the kth kind the kth colour, and different kinds have different colours as long as there are enough. Bars lie between the first and the last missing row; they cover exactly the missing rows if and only if each missing row but the first and the last has another of its kind next to it. Refuted expectations: exactly the missing rows are drawn (rows 0, 5 and 10 are drawn as 0, 1 to 4 and 10); plots come in the order of the table; every column can be chosen by its name (not those with a number for a name); a column without a histogram leaves the others (nothing is shown).

- Code: dataprofiler/reports/graphs.py: plot_histograms, plot_col_histogram, plot_missing_values_matrix, plot_col_missing_values
- Plan: Induction over the sorted rows with the state of the loop; an invariant of the colours; numpy's bins as intervals.
- Status: proved. Theorems: `C104_all`, `C104_by_name`, `C104_by_position`, `C104_refused`, `C104_bars`, `C104_missing`, `C104_missing_within`, `C104_columns_drawn`, `C104_colours_differ`, `C104_drawn`, `C104_missing_refuted`, `C104_sorted_refuted`, `C104_names_refuted`, `C104_empty_refuted`.
- Note: matplotlib and seaborn are modelled by what is asked of them; a rectangle of negative height hangs down from its start, as documented.
- Files: PlotModel/Props

### C105 Seeds and the random choices they govern

After set_seed(s) the rows of a column that are looked at, the values that its sample shows and the lines taken from a file depend on s and on what is asked for only: they are the same in every process and whatever was done before, until set_seed is called again and whatever the environment variable says. Without set_seed, and after set_seed(None), the same holds with the number in DATAPROFILER_SEED, if it is a whole number that is not negative (blanks around it, a sign and single underscores are allowed). set_seed accepts None and integers that are not negative; anything else is a ValueError and changes nothing. Without a seed every choice has a generator of its own, and a warning is given exactly if the variable is set. If the global generators of random and numpy are seeded as well, everything that follows is determined. Refuted expectations: the samples of merged columns, of text profiles and of Parquet files follow the seed; so do the batches of a reader and the order of training samples; and updates with as many rows as before look at other positions (with a seed they look at the same ones).

- Code: dataprofiler/__init__.py: set_seed; dataprofiler/rng_utils.py: get_random_number_generator; dataprofiler/profilers/profiler_utils.py: shuffle_in_chunks; dataprofiler/profilers/profile_builder.py: clean_data_and_get_base_stats; dataprofiler/data_readers/data_utils.py: reservoir
- Plan: A process as a state machine over settings, variable, entropy and global generators; frame lemmas and induction over histories.
- Status: proved. Theorems: `C105_repeat`, `C105_set_seed`, `C105_variable`, `C105_accepts`, `C105_nothing`, `C105_unseeded`, `C105_all`, `C105_other_rows_refuted`, `C105_sample_refuted`, `C105_order_refuted`.
- Note: Generators are arbitrary functions; what a call draws is a function of its generator and arguments.
- Files: SeedModel/Props

### C106 The encoding of a file and the text that is read

The detector of encodings sees the first 20 KiB of a file, in pieces of 1 KiB. If it finds nothing, ASCII or Windows-1254, UTF-8 is tried, otherwise what it found; if the first million characters can be read with it, it is the encoding. If not, and charset_normalizer is installed, what this finds in the first 10000 bytes is tried, then what it finds in the first 20 KiB; where it finds nothing or fails, the guess before stands. The encoding is given in small letters and is never empty. An encoding that decodes the whole file passes the test, and one that passes decodes the whole file if the text is shorter than what is tested. The decoder of UTF-8 accepts exactly the bytes that encode a text and gives this text, so a file in UTF-8 is read as it was written, except that line ends become line feeds; lines have one line feed, at their end, and together they are the text. A reader keeps the encoding that it was given, that was set or that it found first; without a file it has the system's, with UTF-8 for ASCII. Exactly ascii, utf-8, utf-16 and utf-32 in any capitals can be set; other values are a ValueError and change nothing. Refuted expectations: the text read is the text of the file (CR LF becomes LF); the encoding given decodes the file (it may be broken behind the tested part).

- Code: dataprofiler/data_readers/data_utils.py: detect_file_encoding, read_text_as_list_of_strs; dataprofiler/data_readers/base_data.py: file_encoding; dataprofiler/data_readers/text_data.py: _load_data
- Plan: UTF-8 as a state machine over bytes, exactness by case analysis of first bytes; the test of the head as a loop over parts of the file; induction over lines.
- Status: proved. Theorems: `C106_utf8`, `C106_sample`, `C106_first_guess`, `C106_detect`, `C106_small_letters`, `C106_whole_passes`, `C106_short_files`, `C106_read`, `C106_utf8_files`, `C106_reader`, `C106_system`, `C106_set`, `C106_crlf_refuted`, `C106_beyond_refuted`.
- Note: Codecs other than UTF-8 and the two detectors are parameters; codecs are assumed to decode parts of files that they decode.
- Files: EncodingModel/Props

### C107 How labelers are made and what they share

DataLabeler of a kind has the parts of the library's labeler of this kind, or of the directory that is given; load_from_library has those of the named one, load_from_disk those of the directory, load_with_components holds the very objects that are given. A call that fails changes nothing. After any sequence of calls the preprocessor, model and postprocessor of a labeler are of the right kind, and the model of a trainable labeler can be trained; exactly the wrong kinds are refused, a model that cannot be trained with ValueError in trainable labelers, everything else with TypeError. Making labelers changes no other labeler. A change through a labeler is seen by exactly those labelers that hold the same object; labelers that are loaded from the library or from disk never share anything, nor do others as long as only parts that belong to no labeler are given to one. The labeler of a kind equals the library's; labelers are equal exactly if their parts are. What is saved of a labeler in JSON is the name of a labeler of the library, fixed when it is made; one without a name cannot be saved (ValueError). Loading it gives the library's labeler, once for each name and config; a known labeler is never replaced. Refuted expectations: labelers are independent of each other; a labeler of a kind made with an own directory, or one that was changed or trained, comes back from JSON; load_from_disk of an empty path or None fails (it gives a labeler without parts); the labeler of a kind and the one of the library are of one class.

- Code: dataprofiler/labelers/base_data_labeler.py: BaseDataLabeler.__init__, set_preprocessor, set_model, set_postprocessor, load_from_library, load_from_disk, load_with_components, __eq__; dataprofiler/labelers/data_labelers.py: DataLabeler; dataprofiler/profilers/json_encoder.py: ProfileEncoder.default; dataprofiler/profilers/profiler_utils.py: reload_labeler_from_options_or_get_new
- Plan: Heap of components and labelers; invariants over runs of commands; frame property of changes.
- Status: proved. Theorems: `C107_fails`, `C107_kinds`, `C107_made`, `C107_types`, `C107_others`, `C107_change`, `C107_set`, `C107_apart`, `C107_loaded_apart`, `C107_same`, `C107_equal`, `C107_saved`, `C107_reload`, `C107_comes_back`, `C107_independent_refuted`, `C107_own_directory_refuted`, `C107_changed_refuted`, `C107_nothing_refuted`, `C107_class_refuted`.
- Note: What is in a component and how it is loaded from a directory are parameters; load_options are not given. Changes are functions on the contents of one part.
- Files: ShareModel/Props

### C108 The median absolute deviation is the radius of half the mass

With values spread evenly in bins of one width, the interval from v - m to v + m around the value v at which the histogram is folded holds half of the values, where m is the reported median absolute deviation: up to 1e-10 of the mass, and exactly unless a whole interval of radii holds nearly half. So m lies between all radii that hold less and all that hold more than half. This needs that v is not in the first bin (C60), and that its distances from the edges of its bin, and their difference, are 0 or more than 1e-14. NaN is reported exactly without a histogram or when the statistic is switched off; v is the median of the histogram also when medians are switched off. Refuted expectations: it holds on every scale (for bins narrower than 1e-14 the deviation is 0, with no values within 0 of the median); it holds for bins of different widths.

- Code: dataprofiler/profilers/numerical_column_stats.py: median_abs_deviation, _fold_histogram
- Plan: Mass as a sum over bins of the part left of a value; folded parts give the mass around the value; interleaved arithmetic progressions are sorted; inverse of a function that is linear between edges.
- Status: proved. Theorems: `C108_half`, `C108_mass`, `C108_between`, `C108_reported`, `C108_small_scale_refuted`, `C108_widths_refuted`.
- Note: Exact rational numbers.
- Files: MadModel/Props

### C109 What the numbers of a column are for its cells

After any updates and merges the number of samples of a column is the number of its cells and the null count the number of cells that are missing by default: empty, blanks, dashes, underscores, nan, none or null. Every other cell that is written as a number gives the nearest number of double precision, of two equally near ones that with fewer digits, and there is only one such; numbers from (2^54 - 1) * 2^970 on are infinite. It is an integer exactly if what it gives is whole. Match count, sample size, sum, mean, variance, zeros, negatives, and minimum and maximum that are not 0 (C08), of the column as integers and as floats are those of exactly these numbers. At least as many cells are floats as integers. None of this depends on batches, on the order of rows, on how rows are shuffled for sampling, or on merges, as long as all rows are looked at. Refuted expectation: a cell that is not missing and counts as a float is a number (nan after a blank is not missing).

- Code: dataprofiler/profilers/profile_builder.py: StructuredColProfiler.update_profile, clean_data_and_get_base_stats, _update_base_stats, update_column_profilers, __add__; dataprofiler/profilers/numerical_column_stats.py: NumericStatsMixin.is_float, is_int, _update_helper; dataprofiler/profilers/int_column_profile.py: update; dataprofiler/profilers/float_column_profile.py: update
- Plan: Composition of the models of null cells, sampling, number texts and numeric statistics; correct rounding proved from the model of conversion; permutation invariance of all statistics.
- Status: proved. Theorems: `C109_cell`, `C109_nearest_unique`, `C109_counts`, `C109_integers`, `C109_floats`, `C109_floats_are_numbers_refuted`.
- Note: ASCII texts; sums are exact (no rounding after the conversion of cells). The default null values; batches of which all rows are looked at.
- Files: CellsModel/Props

### C110 Text statistics and categories of a column for its cells

After any updates and merges the text statistics of a column - count, sum, mean, variance, shortest and longest - are exactly those of the lengths of its cells that are not missing by default; shortest and longest are exact here, as no such cell has length 0. The vocabulary has exactly the characters that occur in these cells, each once, if it is switched on in all profiles that were merged, and is empty otherwise. With the numeric statistics switched off the cells are still counted. The categories are exactly these cells, each with the number of its occurrences, and their number is that of the different cells, as long as no thresholds stop the counting. None of this depends on batches, order, shuffling or merges if all rows are looked at. Refuted expectation: merging keeps the vocabulary (it is dropped if it is switched off in one of the profiles).

- Code: dataprofiler/profilers/text_column_profile.py: TextColumn.__init__, __add__, _update_vocab, _update_helper, update; dataprofiler/profilers/profiler_utils.py: _combine_unique_sets; dataprofiler/profilers/categorical_column_profile.py: CategoricalColumn.update, __add__; dataprofiler/profilers/profile_builder.py: StructuredColProfiler.update_profile, clean_data_and_get_base_stats, __add__
- Plan: Composition of the models of null cells, sampling, numeric statistics and categories; invariants over histories up to permutation.
- Status: proved. Theorems: `C110_lengths`, `C110_letters`, `C110_categories`, `C110_merge_keeps_letters_refuted`.
- Note: ASCII texts; the default null values; numeric statistics all on or all off; batches of which all rows are looked at.
- Files: TextColModel/Props

### C111 The times in reports

For each name the times of a profile show the sum of the durations of exactly those calls of that name that returned; calls that raise leave no time, and a name is shown once such a call has returned. If the clock is never set back, no time is negative, times never shrink, and what is added is at most the time elapsed as long as no call of the name is inside another of the same profile. A merged profile has the times of both added up and the names of both; merging numeric columns adds the time for merging histograms. After any updates and merges of a numeric column the times show exactly the statistics that were switched on while numbers came. Empty batches add nothing; columns whose order is random and columns whose categories are no longer counted add nothing. Refuted expectations: the time of a name is at most the time elapsed (with a sketch of categories the inner steps are counted twice); merging leaves the first operand as it is (the time for merging orders, sketches and correlations is added to it); the time for merging correlations is shown in the merged profile (only its first operand has it).

- Code: dataprofiler/profilers/profiler_utils.py: method_timeit, add_nested_dictionaries; dataprofiler/profilers/base_column_profilers.py: BaseColumnProfiler._timeit, _add_helper, _merge_calculations; dataprofiler/profilers/order_column_profile.py: OrderColumn.__add__, _update_order; dataprofiler/profilers/categorical_column_profile.py: CategoricalColumn.__add__, _update_categories, _get_categories_cms, _merge_categories_cms; dataprofiler/profilers/numerical_column_stats.py: NumericStatsMixin._add_helper, _update_helper; dataprofiler/profilers/profile_builder.py: BaseProfiler.__add__, StructuredProfiler.__add__, _merge_correlation
- Plan: Operational model of nested timed calls with an oracle for the clock; induction over call trees and histories.
- Status: proved. Theorems: `C111_recorded`, `C111_elapsed`, `C111_merged`, `C111_operands`, `C111_updates`, `C111_names`, `C111_at_most_elapsed_refuted`, `C111_merging_keeps_operands_refuted`, `C111_merge_time_shown_refuted`.
- Note: What timed methods do besides calling other timed methods is not modelled here; times are exact numbers; failures of histograms left out of histories.
- Files: TimesModel/Props

### C112 Which profiles a column has, and what failures do to them

The first update that works gives a column exactly the profiles (dates, integers, floats, texts, order, categories, labels, in this order) that its options ask for and whose constructors work; a constructor that fails only leads to a warning, unless it is a ValueError, which makes the update fail. Later updates keep the kinds; after updates that all worked each profile is what its constructor and the batches give, none influences another. If the update of one profile raises, those before it have been updated and those after it have not, and the rows are counted all the same. Data of another name are refused and change no profile, but their rows are counted. A failed first update leaves no profiles, so that the next one begins anew, unless it was the labeler that failed: then the others are kept and labels are never made. Columns merge only if both have the same name, the same kinds of profiles and rows; the merged column has the kinds of the first, each merged from both. Not true: that a failed update leaves the profile as it was, and that a column which options ask to label gets labels (refuted).

- Code: dataprofiler/profilers/profile_builder.py: StructuredColProfiler.update_column_profilers, __add__, update_profile, _update_base_stats; dataprofiler/profilers/column_profile_compilers.py: BaseCompiler.__init__, _create_profile, __add__, update_profile; dataprofiler/profilers/profiler_utils.py: warn_on_profile; dataprofiler/profilers/profiler_options.py: StructuredOptions.enabled_profiles
- Plan: Profiles of the kinds as oracles; an inductive relation says how far an update got.
- Status: proved. Theorems: `C112_first`, `C112_value_error`, `C112_next`, `C112_name`, `C112_first_failed`, `C112_history`, `C112_merge`, `C112_merge_refused`, `C112_atomic_refuted`, `C112_labels_refuted`.
- Note: What the profiles of a kind do is an oracle (constructors, updates that may raise and leave a changed object, merging); updates through a pool are in C23; options are none or an object of StructuredOptions.
- Files: ColMakeModel/Props

### C113 Labels of a column whose labeler changes, and merging them

Of every batch as many cells are labelled as the option for the largest sample says (1000 if it is missing or 0), all if there are fewer, each cell at most once; updates that work count exactly these cells and updates that fail count none. Once a cell has voted or a report has been read, the column keeps its labels and their order whatever its labeler becomes. While the labeler stays the same, updates do exactly what C38 describes. Two columns can be merged exactly if their labelers are equal, limits, labels and names are the same, and both have no data, or both have votes and equally many labels; other labelers or limits are an AttributeError, other labels a ValueError. Refuted expectations: reports use the labels of the labeler (after its labels were changed, votes go to the former ones), a failed update changes no report (average confidences change, their sum may exceed 1), and a merged column can be updated by data that its operands accept.

- Code: dataprofiler/profilers/data_labeler_column_profile.py: __init__, assert_equal_conditions, __add__, reverse_label_mapping, possible_data_labels, rank_distribution, sum_predictions, label_representation, avg_predictions, _update_predictions, update
- Plan: The labeler's state is an argument of every call; a refinement theorem links it to C38 while the labeler stays the same.
- Status: proved. Theorems: `C113_cells`, `C113_count`, `C113_names`, `C113_same`, `C113_merge`, `C113_new_labels_refuted`, `C113_failed_refuted`, `C113_merged_update_refuted`.
- Note: Sampling is an oracle that chooses cells of the batch; the comparison of labelers is an oracle (see C45, C107); predictions are made cell by cell; confidences are exact.
- Files: LabelNamesModel/Props

### C114 Differences of profiles of free text

Two profiles of free text that have seen data can always be compared. Type of file and encoding are given if they differ, numbers of samples, of empty lines and the memory by their differences. The sections for labels and statistics are there exactly if both profiles have them. Counts and shares of labels are compared label by label on three levels. Characters and words are compared as sets: those of the first only, of both, of the second only; counts by their differences, among as many of the most common of both as the first profile shows, all if it has no limit. A profile compared with itself shows no change. If only one of them distinguishes capitals its words are put in lower case, once per spelling, with the count of the last spelling. But then the same text gives different words and counts; with a limit words of both are said to be of one only; and without data the comparison fails with an error that depends on the side.

- Code: dataprofiler/profilers/unstructured_text_profile.py: TextProfiler.diff; dataprofiler/profilers/unstructured_labeler_profile.py: UnstructuredLabelerProfile.diff; dataprofiler/profilers/column_profile_compilers.py: UnstructuredCompiler.diff; dataprofiler/profilers/profile_builder.py: UnstructuredProfiler.diff
- Plan: Built on the model of differences (C24, C25) and of texts (C28); dictionaries of counts as functions from keys.
- Status: proved. Theorems: `C114_vocab`, `C114_words`, `C114_all`, `C114_lower_first`, `C114_lower_second`, `C114_self`, `C114_labels`, `C114_global`, `C114_sections`, `C114_succeeds`, `C114_empty_refuted`, `C114_case_refuted`, `C114_top_refuted`.
- Note: Texts are ASCII; label counts and shares are given dictionaries (C32); memory is given; output format and omitted keys are C40 and C70.
- Files: TextDiffModel/Props

### C115 Attributes of data sets

Asking a data set for an attribute gives what the data set stores, without loading the data, or what it computes from the data; for names it does not have it gives the attribute of the loaded data, and an AttributeError naming both classes if those have none either. The length is that of the data. An AttributeError from inside an attribute is raised and not taken for a missing attribute. An error of loading is raised and leaves nothing loaded; after a load that succeeds the data are not loaded again, whatever is asked for. Refuted expectations: columns of the loaded data frame are attributes of the data set; an AttributeError while loading is raised (the load is repeated until the recursion is too deep).

- Code: dataprofiler/data_readers/base_data.py: BaseData.__getattribute__, data, __len__, length
- Plan: Objects answer names with values or errors with messages; the getter of the data is a recursive function of the depth of calls.
- Status: proved. Theorems: `C115_own`, `C115_computed`, `C115_length`, `C115_forward`, `C115_inner_error`, `C115_other_error`, `C115_load_error`, `C115_load_attribute_error`, `C115_once`, `C115_lazy`, `C115_columns_refuted`, `C115_load_error_refuted`.
- Note: The message of an AttributeError raised by a load is taken not to say that the data set has no attribute data.
- Files: AttrModel/Props

### C116 Schemas in reports and differences

The schema in a report lists for each column name the positions of the columns with that name, in order. In the formats for people and for JSON numbers of numpy and other objects become numbers and texts of Python, and the positions of every column are under its name if no two different names are printed alike. The schema of a difference lists the names of the first profile only, of both and of the second only, with their positions; formatting it fails exactly for two profiles without columns in those formats. Refuted expectations: every column is listed (one of two columns whose names print alike is lost); the difference of profiles without columns can be shown in every format.

- Code: dataprofiler/profilers/helpers/report_helpers.py: _clean_profile_schema, _prepare_report; dataprofiler/profilers/profile_builder.py: StructuredProfiler.report, diff; dataprofiler/profilers/profiler_utils.py: find_diff_of_dicts_with_diff_keys
- Plan: Names as an inductive type with decidable equality; the schema as an association list built column by column.
- Status: proved. Theorems: `C116_schema`, `C116_serializable`, `C116_report`, `C116_plain`, `C116_lost_refuted`, `C116_diff`, `C116_diff_shown`, `C116_diff_plain`, `C116_diff_fails`, `C116_empty_refuted`.
- Note: Names that are floats or booleans are not modelled; differences of shared positions are those of C25.
- Files: RepSchemaModel/Props

## Findings: expectations refuted by the modelled code

- `C115_columns_refuted` (AttrProps.v): A user expects every attribute of the data to be one of the data set if that has none of that name. Columns of a data frame are not.
- `C115_load_error_refuted` (AttrProps.v): A user expects the error of a failed load to be raised. An AttributeError is not.
- `C69_any_records_refuted` (AvroProps.v): A user expects the keys of any records. If a key leads to a value in one record and to a dictionary in a later one, there is an error; in the other order there is none.
- `C91_limit_refuted` (BinWidthProps.v): The number by Freedman and Diaconis exceeds every bound, also the limit of 100000 that holds for profiles that are not merged: eight values, most of them close together, are enough.
- `C06_merge_adds_sample_sizes_refuted` (CategoricalProps.v): C06: a user expects the sample size of a merge to be the sum.
- `C55_merge_keeps_top_k_refuted` (CategoricalProps.v): C55: the options of a profile after merging.
- `C55_merge_keeps_thresholds_refuted` (CategoricalProps.v): The stop thresholds of the profile with fewer categories win, the second one's on a tie; after a merge with a stopped profile there are none (it is stopped for good).
- `C109_floats_are_numbers_refuted` (CellsProps.v): The expectation that a cell which is not missing and counts as a float is a number is false: with a blank before it the word nan is not missing.
- `C31_labels_empty_separator_refuted` (CharProps.v): With an empty separator and cutting at word breaks, label rows can be too short: the labels collected for an input are all lost when the next text does not fit.
- `C73_merge_refuted` (ChiProps.v): Merging a table without a row of values with one whose columns are in another order: columns 0 and 1 of the merged table are the last and the second of the other table, of which the last has no values, so that their p-value is 0; but the matrix of the other table is taken over
- `C73_constant_refuted` (ChiProps.v): Two columns with the same single category: no p-value, though the diagonal has one
- `C53_update_after_merge_refuted` (CmsProps.v): A user expects that a merged profile can be updated further. It lacks the sizes of its sketch.
- `C53_associative_refuted` (CmsProps.v): A user expects that it does not matter which of three profiles are merged first.
- `C53_incompatible_sizes_refuted` (CmsProps.v): The code means to raise the [ValueError] about sketches of different sizes again; it calls it instead, so that the user sees a [TypeError].
- `C98_renamed_refuted` (CnnProps.v): New names for the same numbers are not noticed: predictions of the old net are given under the new names, without any training.
- `C98_pad_refuted` (CnnProps.v): PAD gets another number than zero when it stands in a list at another place than the first, although dictionaries are refused for that.
- `C98_default_refuted` (CnnProps.v): A default label that is no label is accepted, and then neither training nor predicting nor saving works.
- `C98_saved_refuted` (CnnProps.v): After a label was added predictions are refused until the model is trained; but saving the model is enough.
- `C98_short_batch_refuted` (CnnProps.v): With a smaller batch before the last one there are more lists of predictions than samples.
- `C112_atomic_refuted` (ColMakeProps.v): A failed update leaves the profile as it was: the types have counted the rows, the categories not.
- `C112_labels_refuted` (ColMakeProps.v): A column that options ask to label gets a profile for labels: not after a first failure.
- `C81_default_refuted` (ColNameProps.v): Without parameters no model can be made, though all have defaults.
- `C81_set_refuted` (ColNameProps.v): No parameter can be set unless the true positives are given again.
- `C81_labels_refuted` (ColNameProps.v): Labels need not be among those of the model; and one label that is the only one of the model is rejected.
- `C81_entries_refuted` (ColNameProps.v): Entries without attribute or label are accepted, and numbers that are not whole are not accepted as thresholds.
- `C81_aligned_refuted` (ColNameProps.v): The answers do not tell which names they belong to: two lists of two names with different labels have the same answer.
- `C81_include_refuted` (ColNameProps.v): Without labels any prediction raises as soon as one name exceeds the threshold.
- `C56_disabled_refuted` (ColReportProps.v): Findings. "With the flag, what is switched off is not listed and what is switched on is" holds for graphs only.
- `C56_enabled_refuted` (ColReportProps.v): Findings. "With the flag, what is switched off is not listed and what is switched on is" holds for graphs only.
- `C56_words_refuted` (ColReportProps.v): The counts of the words of a text are dropped even if all is switched on.
- `C56_pure_refuted` (ColReportProps.v): Asking for a report is not free of effects: the labeler's times become times of the column's numbers.
- `C44_same_positions_refuted` (ConfProps.v): A user expects the matrix to compare labels of the same positions. If the predictions have different lengths that add up, positions of different texts are compared.
- `C44_perfect_predictions_refuted` (ConfProps.v): A user expects perfect predictions to score 1. Without names of the labels the score is 0.
- `C44_score_at_most_one_refuted` (ConfProps.v): A user expects a score of at most 1. Labels with the same name are counted once, and the score doubles.
- `C22_constant_batch_refuted` (CorrProps.v): A batch in which a column is constant makes the correlation nan for good, though the column is not constant:
- `C22_text_column_refuted` (CorrProps.v): Merging two profiles of a table one of whose columns is not numeric fails:
- `C22_uncorrected_refuted` (CorrProps.v): Without bias correction merged correlations are not the correlations of all rows:
- `C22_nulls_refuted` (CorrProps.v): With nulls the correlation depends on how the rows are batched:
- `C22_column_order_refuted` (CorrProps.v): Merging a profile whose columns come in another order uses the statistics of the wrong columns:
- `C84_random_refuted` (CsvDelimProps.v): The delimiter of the same text may depend on chance: if a row with fewer columns is drawn again, it stands at the bottom.
- `C84_late_refuted` (CsvDelimProps.v): Rows below the 25th are not looked at: the delimiter need not occur there.
- `C84_blanks_refuted` (CsvDelimProps.v): A table delimited by commas is taken to be delimited by blanks if its cells have many words.
- `C83_tab_refuted` (CsvMatchProps.v): A line of one tab in a file delimited by tabs makes reading fail.
- `C83_blank_refuted` (CsvMatchProps.v): Of four lines three should agree. If there are empty lines as well, two are enough, and of five lines in a hundred one.
- `C83_none_refuted` (CsvMatchProps.v): Of four lines three should agree. If there are empty lines as well, two are enough, and of five lines in a hundred one.
- `C83_beginning_refuted` (CsvMatchProps.v): Only the beginning of a file is looked at, up to the tenth line: the lines below may be anything.
- `C83_quote_refuted` (CsvMatchProps.v): A quote that is given is not used if the delimiter is guessed.
- `C83_small_refuted` (CsvMatchProps.v): A table of a header and two rows is no match.
- `C83_blanks_refuted` (CsvMatchProps.v): Delimiters of two blanks make reading fail for a file that begins with a line of two or three blanks.
- `C82_wide_refuted` (CsvWordsProps.v): A table with a row of names is read with the first row of data as the header if it has eleven columns and one of numbers.
- `C82_names_refuted` (CsvWordsProps.v): Names above words are not found if the cells have about as many words.
- `C82_data_refuted` (CsvWordsProps.v): Words without names have a header if some cell has more words.
- `C71_may_refuted` (DateProps.v): Dates in the format of the example 12Mar13 are not recognised if all are in May:
- `C71_batching_refuted` (DateProps.v): so the number of dates depends on the batches:
- `C71_sampling_refuted` (DateProps.v): The number of dates of one batch depends on the random sample:
- `C24_self_unchanged_refuted` (DiffProps.v): C24 (finding). A statistic that is NaN (the variance of a single value) compared with itself is reported as changed, by NaN.
- `C25_list_unchanged_is_equal_refuted` (DiffProps.v): C25 (finding). Lists with the same elements and length are reported unchanged although elements occur with different frequencies.
- `C25_missing_key_unchanged_refuted` (DiffProps.v): C25 (finding). A key whose value is None in the first report and which is missing in the second is reported as unchanged; the other way round it is reported as a change from None to None.
- `C25_dict_symmetric_refuted` (DiffProps.v): C25 (finding). A key whose value is None in the first report and which is missing in the second is reported as unchanged; the other way round it is reported as a change from None to None.
- `C88_always_refuted` (DiffTableProps.v): C88, findings. Two tables with the same names cannot always be compared: with a column of numbers in one and of text in the other, and neither categories nor labels profiled, the answer is a KeyError. And psi of numbers is lost if both columns are categorical, as psi of the categories has the same name
- `C88_psi_refuted` (DiffTableProps.v): C88, findings. Two tables with the same names cannot always be compared: with a column of numbers in one and of text in the other, and neither categories nor labels profiled, the answer is a KeyError. And psi of numbers is lost if both columns are categorical, as psi of the categories has the same name
- `C106_crlf_refuted` (EncodingProps.v): The file ends "CR LF": the carriage return is gone.
- `C106_beyond_refuted` (EncodingProps.v): A file may be broken behind the part that is tested, whatever the sizes are: the encoding that is given does not decode the file.
- `C103_perfect_macro_refuted` (FBetaProps.v): "All rows right give the score 1" does not hold of macro averages: a class without rows counts as 0.
- `C103_one_prediction_refuted` (FBetaProps.v): "A row has one prediction" does not hold: classes with the same largest value all count, and a row of zeros has none.
- `C94_labels_refuted` (FactoryProps.v): Labels are not computed although labeling is on in the options as the user made them and the labeler can be loaded: an earlier profiler could not load it.
- `C94_failure_refuted` (FactoryProps.v): A profiler that cannot be made leaves the options changed.
- `C94_zero_refuted` (FactoryProps.v): Zero as the number of required values does not override that of the profiler.
- `C96_unused_refuted` (FitProps.v): A sample may be used neither to train nor to validate: with a single sample to train there is no validation, and all others are left out.
- `C96_failure_refuted` (FitProps.v): A call that fails may leave the labeler with other labels.
- `C40_lost_refuted` (FlatProps.v): Different paths can get the same key, and then an entry of the report is lost:
- `C40_zero_refuted` (FlatProps.v): The name of a dictionary under the key 0 is left out, so that its entries can replace others:
- `C40_empty_refuted` (FlatProps.v): Empty dictionaries vanish:
- `C79_names_refuted` (GraphDataProps.v): A header further down is not found, though the row is there: [row_count is header].
- `C79_text_refuted` (GraphDataProps.v): Nodes with names that are not numbers cannot be read when the columns have names: the columns of the ends are turned into numbers like the others.
- `C79_ends_refuted` (GraphDataProps.v): The number of the source and that of the destination are attributes of the edge.
- `C79_negative_refuted` (GraphDataProps.v): A node with a negative number is a text, one with a positive number is a number: "-1" and "1" are of different types.
- `C79_last_refuted` (GraphDataProps.v): Without a column that says it is the source, the last column is taken for it.
- `C79_plain_refuted` (GraphDataProps.v): A column called just "source" or "target" is not taken for one, and one column may be taken for both ends.
- `C79_empty_refuted` (GraphDataProps.v): One empty cell and nothing is read.
- `C78_most_edges_refuted` (GraphProps.v): The component reported need not be the one with the most edges.
- `C78_missing_refuted` (GraphProps.v): Edges of which one lacks an attribute cannot be profiled, though numbers of nodes and edges are already those of the new graph.
- `C78_failed_refuted` (GraphProps.v): Edges of which one lacks an attribute cannot be profiled, though numbers of nodes and edges are already those of the new graph.
- `C78_large_refuted` (GraphProps.v): A continuous attribute that no candidate fits with a negative log-likelihood of at most 1000 (as for all large graphs) raises.
- `C78_again_refuted` (GraphProps.v): A second graph replaces the statistics of the first, but the sample size is that of both.
- `C78_moments_refuted` (GraphProps.v): The moments reported are not those of the fitted distribution: a normal distribution fitted with mean 1/2 and standard deviation 2 is reported with two means and with variance 1.
- `C14_empty_is_neutral_refuted` (HistProps.v): Merging with a profile that has seen no value drops the histogram, on either side.
- `C15_percentile_monotone_everywhere_refuted` (HistProps.v): Without the condition on the percentages it is false: just above 50 the interpolation is steeper than the median rule allows.
- `C59_median_shift_refuted` (HistProps.v): Shifting the data shifts the percentiles, unless the middle of an empty half-way gap is 0 before or after the shift.
- `C60_mad_mirror_refuted` (HistProps.v): So it is not symmetric under mirroring the data.
- `C51_all_lines_refuted` (JsonProps.v): A user expects all lines that are JSON to be read. Those behind an empty line are not.
- `C67_no_records_refuted` (JsonProps.v): A user expects no records for data without rows. The number of records is divided by the number of rows.
- `C67_all_text_refuted` (JsonProps.v): A user expects the lines of JSON text to make up the text. A last line that is not full is dropped.
- `C34_records_stay_together_refuted` (JsonProps.v): A user expects the values of a record to be in the same row. A record that lacks a key takes the value of a later record.
- `C75_names_refuted` (JsonSaveProps.v): Column names that look like numbers are numbers after loading: the next batch of the same table is refused.
- `C75_mixed_names_refuted` (JsonSaveProps.v): Integers among names that are strings are strings after loading.
- `C75_same_number_refuted` (JsonSaveProps.v): Names that are the same number become one name.
- `C75_column_nulls_refuted` (JsonSaveProps.v): Not every profile that can be saved, with options that are valid, can be loaded: not with null values of a column, ...
- `C75_flags_refuted` (JsonSaveProps.v): ... not with a flag, ...
- `C75_class_refuted` (JsonSaveProps.v): ... and not if the word "class" stands for a null value.
- `C75_metrics_refuted` (JsonSaveProps.v): The null replication metrics of a column are gone after loading.
- `C101_same_table_refuted` (JsonTableProps.v): The same records give the same table, in one document or in lines:
- `C101_every_key_refuted` (JsonTableProps.v): Every key of a record has a column:
- `C101_every_value_refuted` (JsonTableProps.v): Every value of a record is in its row:
- `C101_order_refuted` (JsonTableProps.v): Whether a list is accepted does not depend on the order:
- `C101_half_refuted` (JsonTableProps.v): A file is recognised if half of its lines are JSON:
- `C101_table_refuted` (JsonTableProps.v): A file that is recognised gives a table:
- `C97_equal_refuted` (LabDiskProps.v): Expectation: a labeler that was saved and loaded equals the one saved. Regex postprocessors compare their generators, which are new objects.
- `C97_atomic_refuted` (LabDiskProps.v): Expectation: a save that fails leaves what was saved before.
- `C97_labels_refuted` (LabDiskProps.v): Expectation: as many labels are loaded as were saved. The number 1 and the text 1 are different labels before and one label afterwards.
- `C97_case_refuted` (LabDiskProps.v): Expectation: a labeler that could be loaded still gets its model after another class of models was made. Names are compared in lower case.
- `C97_weights_refuted` (LabDiskProps.v): Expectation: equal labelers have the same weights; equality does not look at them.
- `C38_merge_refuted` (LabelColProps.v): Merging a column that has data with one that has none is an error:
- `C38_no_votes_refuted` (LabelColProps.v): Profiles that both have data can be merged: not if no cell of one of them was labelled with confidence; reading a report of it makes the difference.
- `C38_order_refuted` (LabelColProps.v): The label of a merged profile depends on the order of a set: of labels with as many votes, the first ones are reported.
- `C38_gap_refuted` (LabelColProps.v): If a position below the number of labels has no label, average confidences are listed for the wrong labels, and a vote for the position is an error:
- `C38_rounding_refuted` (LabelColProps.v): In double precision a label whose share is exactly a fifth below the best one is sometimes reported and sometimes not:
- `C113_new_labels_refuted` (LabelNamesProps.v): Reports use the labels of the labeler: a labeler that got other labels votes for the former ones.
- `C113_failed_refuted` (LabelNamesProps.v): A failed update changes no report: the average confidences have changed, here to a sum of 2.
- `C113_merged_update_refuted` (LabelNamesProps.v): A merged column can be updated by the data that its operands accept: it takes the names of votes from the labeler anew.
- `C43_every_label_listed_refuted` (LabelProps.v): A user expects the list of labels to contain every label that was added. Of labels that share a number only the last one is listed.
- `C45_failed_call_changes_nothing_refuted` (LabelProps.v): A user expects a call that raises an exception to leave the labeler as it was. The preprocessor keeps its new parameters when those for the model are refused.
- `C45_valid_parameters_accepted_refuted` (LabelProps.v): A user expects valid parameters for an existing component to be accepted. Without a model the call fails after the change.
- `C108_small_scale_refuted` (MadProps.v): On a small scale the deviation is 0, though nothing of the mass is within 0 of the median
- `C108_widths_refuted` (MadProps.v): With bins of different widths it is not the radius of half the mass
- `C95_order_refuted` (MergeTableProps.v): A table with null replication metrics can be merged with one without, but the report of the result fails; in the other order it does not.
- `C95_reload_refuted` (MergeTableProps.v): Saving and loading a profile does not change with what it can be merged: with null replication metrics it does.
- `C95_covers_refuted` (MergeTableProps.v): The correlations and the metrics that a report shows are of the rows it counts: not after a merge with a table without them and an update.
- `C11_constant_kurtosis_refuted` (MomentProps.v): A user expects the kurtosis not to depend on how values come in batches. For equal values it is -3 in one batch and 0 in two.
- `C11_small_values_refuted` (MomentProps.v): A user expects the skewness not to depend on the unit of the values. That of small values is 0 in one batch.
- `C50_last_character_refuted` (NerProps.v): The last character of a text is left out when its word is relabelled.
- `C50_unanimous_word_refuted` (NerProps.v): A word all of whose characters have the same label does not always keep it: a word of one letter becomes background.
- `C68_values_kept_refuted` (NestProps.v): A user expects every value of a record to be kept or an error. If a key leads to another one, one of the values may be dropped silently.
- `C68_any_keys_refuted` (NestProps.v): A user expects records with a key that leads to another one to be made as well. There is an error.
- `C92_case_refuted` (NullCellProps.v): A null value without the flag for case is not looked for as it is written.
- `C92_none_refuted` (NullCellProps.v): Without any null value empty cells still count as null.
- `C92_more_refuted` (NullCellProps.v): Adding a null value can make cells not null that were.
- `C92_literal_refuted` (NullCellProps.v): A null value is a regular expression: "n.a" also stands for other cells.
- `C19_negative_labels_refuted` (NullProps.v): C19 (limit). With negative labels the shift does not separate overlapping batches.
- `C20_repeated_labels_refuted` (NullProps.v): C20 (finding). With repeated labels the null count is wrong: two values, no null, one null counted, and the number of cleaned values is not the number of true rows.
- `C20_null_ratio_is_overall_refuted` (NullProps.v): C20 (finding). The null ratio (shown by diff) is not null count over sample size.
- `C41_labels_refuted` (NullRepProps.v): After a batch whose labels were shifted, the nulls of a batch with new labels are not found: the class sums miss them
- `C41_text_refuted` (NullRepProps.v): The sums over the rows where a column is given are, for a column of texts, the lengths of the texts of all rows
- `C41_order_refuted` (NullRepProps.v): A batch with its columns in another order: the sums of the other columns are mixed up
- `C41_place_refuted` (NullRepProps.v): Tables with their columns in different orders are merged by place: the priors of a column are those of two columns
- `C41_date_refuted` (NullRepProps.v): Tables with a column of dates cannot be merged
- `C41_lost_refuted` (NullRepProps.v): A column without values in one of two merged tables: the sums over the rows where a column is given are lost
- `C41_correlation_refuted` (NullRepProps.v): With correlations enabled a table with a column of texts and nulls cannot be profiled
- `C100_whole_refuted` (NumTextProps.v): Integers are whole numbers: no.
- `C100_zero_refuted` (NumTextProps.v): A number other than zero that counts as an integer is at least a half: no.
- `C100_huge_refuted` (NumTextProps.v): Whole numbers are integers: no.
- `C08_streaming_minimum_refuted` (NumericProps.v): The user's expectation is false: [0] then [5] reports minimum 5.
- `C08_streaming_maximum_refuted` (NumericProps.v): The user's expectation is false: [0] then [5] reports minimum 5.
- `C12_streamed_precision_variance_refuted` (NumericProps.v): Streaming is wrong: what it computes from two batches, and a witness.
- `C70_wildcards_refuted` (OmitProps.v): Two wildcards, that should omit everything below the first level, raise an error if there is a column:
- `C70_dotted_name_refuted` (OmitProps.v): The entries of a column with a dot in its name cannot be omitted:
- `C70_caller_list_refuted` (OmitProps.v): A compact report changes the list of keys of the caller, so that the next report with that list lacks entries:
- `C77_rows_refuted` (OptCheckProps.v): The statistics of rows are not validated: a method of hashing that does not exist, a number of registers below one, and switches that are not Boolean are accepted.
- `C77_switches_refuted` (OptCheckProps.v): The switches of the characters and words of free texts need not be Boolean.
- `C77_cms_refuted` (OptCheckProps.v): A count-min sketch may be asked for with a number of heavy hitters below one, and without its other parameters.
- `C76_unknown_refuted` (OptionsProps.v): A misspelt name is not always refused.
- `C76_documented_refuted` (OptionsProps.v): The example of the documentation, set({"is_numeric_stats_enabled": False}), is refused.
- `C76_every_refuted` (OptionsProps.v): A star does not reach every option of that name.
- `C76_error_refuted` (OptionsProps.v): An error does not mean that nothing was set, not even for one name.
- `C76_existing_refuted` (OptionsProps.v): An option that exists cannot always be set by its last components: the structured options for text have no top_k_chars.
- `C76_both_refuted` (OptionsProps.v): Not every name that stands for options of both kinds of data is refused.
- `C17_ascending_means_sorted_refuted` (OrderProps.v): A user would expect "ascending" to mean that the data ascend. False: the batches 5 and 1, 2, 3.
- `C17_constant_means_one_value_refuted` (OrderProps.v): A user would expect "constant value" to mean one value. False: the batches 1 and 2.
- `C17_merge_associative_refuted` (OrderProps.v): The answer depends on how the batches are grouped.
- `C17_mirror_refuted` (OrderProps.v): Negating all data should exchange ascending and descending. False: merging constant pieces into a descending profile shrinks the stored range.
- `C104_missing_refuted` (PlotProps.v): "Exactly the missing rows are drawn" does not hold.
- `C104_sorted_refuted` (PlotProps.v): "Plots are in the order of the table" does not hold: the sorted positions are not used.
- `C104_names_refuted` (PlotProps.v): "Every column can be chosen by its name" does not hold of columns with a number for a name.
- `C104_empty_refuted` (PlotProps.v): "One plot in which a column has no histogram shows the others" does not hold: nothing is shown.
- `C23_null_replication_refuted` (PoolProps.v): If a worker fails, the columns are in another order when the null replication metrics are computed: these differ
- `C23_memory_refuted` (PoolProps.v): With less memory available, more processes are started
- `C23_processors_refuted` (PoolProps.v): The pool for the statistics always has 4 processes, also on a machine with one processor
- `C49_identical_refuted` (PsiProps.v): Twenty bins of one value each, compared with themselves
- `C49_index_refuted` (PsiProps.v): Five bins, as chosen with the histogram options, compared with themselves
- `C49_ranges_refuted` (PsiProps.v): Ten bins from 0 to 10 compared with the same numbers in twenty bins: two bins of the other from 0 to 20 have the same counts as those of self, and the index is 0, though the other column has numbers twice as large
- `C49_disjoint_refuted` (PsiProps.v): Columns without a number in common
- `C49_categories_refuted` (PsiProps.v): Columns without a category in common; a column of nulls only
- `C49_empty_refuted` (PsiProps.v): Columns without a category in common; a column of nulls only
- `C33_rounding_refuted` (QuantProps.v): With 30 groups the double precision numbers round 500 up to 501, so that the median shown is not the stored one:
- `C33_few_quantiles_refuted` (QuantProps.v): One or two stored quantiles and the default number of groups, or any number that is too large, raise an error:
- `C35_limit_refuted` (ReadProps.v): A user expects no more to be read than the limit. Whole chunks are read.
- `C35_whole_file_refuted` (ReadProps.v): A user expects a file within the limits to be read as a whole. The last character is dropped if it is alone in its chunk.
- `C35_chunk_size_refuted` (ReadProps.v): A user expects what is read not to depend on the chunk size. A run of line ends across chunks is counted twice.
- `C35_consecutive_refuted` (ReadProps.v): A user expects consecutive matches of a longer query to be counted once. Only the last character is repeated.
- `C46_used_again_refuted` (ReadProps.v): A user expects a handler to be usable again. One that was made for a path holds the closed file after its use.
- `C46_position_refuted` (ReadProps.v): A user expects the position of a buffer that is only read to be as before. It is set to the start.
- `C46_failure_cleans_up_refuted` (ReadProps.v): A user expects nothing to be left open if entering fails. A file with an invalid offset stays open, and a byte buffer keeps its wrapper (which closes the buffer when it is collected).
- `C85_pop_refuted` (ReaderProps.v): Finding: the storage options are taken out of the dictionary of the user; the same call with the same dictionary fails the second time.
- `C85_stops_refuted` (ReaderProps.v): Finding: an error in the test of one class stops the search, also if a later class reads the file.
- `C86_reload_refuted` (ReaderProps.v): Finding: the documentation of loading anew says that the options are replaced by those given; those for header, delimiter and quote are not: a file is read with the delimiter of the one before, though another is given; and the dictionary given is changed.
- `C86_zero_refuted` (ReaderProps.v): Finding: no samples per line pass the check, whose message asks for more than 0, and then no records can be had; truth values pass for numbers, so that True is the header in row 1.
- `C86_late_refuted` (ReaderProps.v): Findings: formats that do not exist pass for readers other than CSV and fail only when the data is asked for; a graph cannot be asked whether it is structured.
- `C86_graph_refuted` (ReaderProps.v): Findings: formats that do not exist pass for readers other than CSV and fail only when the data is asked for; a graph cannot be asked whether it is structured.
- `C87_equal_refuted` (ReaderProps.v): Finding: a file of exactly one gigabyte is refused if its length is declared and taken if not.
- `C87_small_refuted` (ReaderProps.v): Finding: pieces are counted as 8192 bytes each, so that a file sent in pieces of one byte is refused though it has 128 KB.
- `C42_one_prediction_per_text_refuted` (RegexProps.v): A user expects one prediction per text. Without texts there is one (empty) prediction.
- `C42_background_is_exclusive_refuted` (RegexProps.v): A user expects a character labelled as background to match no other label. A pattern of the default label that comes later gives its vote back.
- `C52_chosen_label_has_vote_refuted` (RegexProps.v): A user expects the chosen label to be one that matched. A character without a vote for any label of the priority order, such as a background character when the order lists only entities, gets the first one.
- `C52_priority_has_an_order_refuted` (RegexProps.v): A user expects that a processor that accepted the function priority has an order. A call that sets only the function is accepted, and processing then fails.
- `C65_unmatched_cell_is_default_refuted` (RegexProps.v): A user expects a cell in which no pattern matches to get the default label. An empty cell gets the label with number 0, whatever the default label is.
- `C116_lost_refuted` (RepSchemaProps.v): A user expects every column to be listed. Columns whose names are different objects that print alike are lost.
- `C116_empty_refuted` (RepSchemaProps.v): A user expects a difference of two profiles in every format. That of two profiles without columns is only shown in some.
- `C63_any_labels_refuted` (RowNullProps.v): C63 (finding). With a minimum of true samples, the shift of row labels set by an overlapping batch is kept for a later batch that does not overlap: the nulls of that batch are looked up at the wrong labels, and its rows are not counted.
- `C63_ratio_of_counted_rows_refuted` (RowNullProps.v): C63 (finding). With a minimum of true samples, the denominator of the ratios is the smallest number of rows examined for a column over all batches, which can exceed the number of rows for which nulls were counted: every counted row has a null, and the ratio is 2/3.
- `C27_merge_keeps_operands_refuted` (RowProps.v): C27 (finding). Merging changes the left operand: after [a + b] the profile [a] of one row reports a unique row ratio of 2.
- `C27_unique_ratio_at_most_one_refuted` (RowProps.v): C27 (finding). Merging changes the left operand: after [a + b] the profile [a] of one row reports a unique row ratio of 2.
- `C27_merged_profile_is_independent_refuted` (RowProps.v): C27 (finding). Updating the left operand after the merge changes the merged profile.
- `C21_columns_may_be_permuted_refuted` (RowProps.v): C21 (finding). Rows are hashed in the column order of the batch. The profiler accepts a batch with permuted columns (C18), but does not recognise its rows: the same record, given twice with permuted columns, is not a duplicate, even with a perfect hash.
- `C26_correlation_refuted` (SaveProps.v): The correlation matrix is not in the report of the loaded profile.
- `C26_metrics_refuted` (SaveProps.v): With null replication metrics the report of the loaded profile raises TypeError.
- `C26_ratio_refuted` (SaveProps.v): A profile with a sampling ratio of its own samples with the default ratio after loading.
- `C26_labeler_refuted` (SaveProps.v): A data labeler of the user's own is replaced by the default one.
- `C26_failed_save_refuted` (SaveProps.v): A failed save (say, of a file in a directory that is not there) changes the profile: its labelers are gone.
- `C26_empty_text_refuted` (SaveProps.v): A profile of texts that has seen no text yet cannot be saved: the call raises AttributeError.
- `C26_method_refuted` (SaveProps.v): [load_method="pickle"] loads JSON files too.
- `C26_class_refuted` (SaveProps.v): A file of a profile of columns is loaded by UnstructuredProfiler, as a profile of a text that holds a list of columns.
- `C26_graph_refuted` (SaveProps.v): [Profiler.load] of the file of a graph profile gives a structured profile without columns.
- `C18_update_atomic_refuted` (SchemaProps.v): C18 (finding). A batch whose names differ in case passes the schema check; its null and sample counts are added, and only then a ValueError is raised: a failing update is not atomic.
- `C18_null_values_follow_column_refuted` (SchemaProps.v): C18 (finding). The null values configured for a column are those of its position in each batch: with permuted columns, the values configured for another column are applied.
- `C18_own_null_values_kept_refuted` (SchemaProps.v): C18 (finding). In a merged profile a column no longer knows the null values it was created with, so what is configured for the column itself is not applied to permuted batches.
- `C105_other_rows_refuted` (SeedProps.v): Updates with as many rows look at the same positions: with a seed no second update of [n] rows can look at other positions than the first.
- `C105_sample_refuted` (SeedProps.v): The samples of merged columns, of text profiles and of Parquet files.
- `C105_order_refuted` (SeedProps.v): The batches of a reader and the order of the training samples; even two calls in one process.
- `C107_independent_refuted` (ShareProps.v): Labelers are not independent: two with a component in common
- `C107_own_directory_refuted` (ShareProps.v): The one that a JSON file gives back is not always the one that was saved: not if it was made with a directory of one's own ...
- `C107_changed_refuted` (ShareProps.v): ... nor if it was changed or trained
- `C107_nothing_refuted` (ShareProps.v): load_from_disk of nothing does not fail: it gives a labeler without parts
- `C107_class_refuted` (ShareProps.v): The labeler of a kind and the one of the library are not of one class
- `C72_several_refuted` (SizeProps.v): A profile of several files forgets this at the next update, and updates never give the mark:
- `C72_encoding_refuted` (SizeProps.v): The encoding reported need not be one of the data of the file type reported:
- `C72_empty_refuted` (SizeProps.v): Merging with a profile of an empty data set makes multiple files of one:
- `C66_last_refuted` (StructProps.v): An empty last sample: the separator before it gets the default label.
- `C66_pad_refuted` (StructProps.v): The label of padding is always called PAD, whatever the parameter says: joining two samples needs a label of that name.
- `C93_mean_refuted` (SwitchProps.v): With the sum switched off the mean that is shown is 0.
- `C93_quantiles_refuted` (SwitchProps.v): The number of quantiles is lost when two profiles with the same number are merged.
- `C102_rows_refuted` (TablePartProps.v): Rows of a sample are rows of the file:
- `C102_readable_refuted` (TablePartProps.v): A file that can be read can be sampled:
- `C102_count_refuted` (TablePartProps.v): A sample has as many rows as were asked for if the file has them:
- `C102_names_refuted` (TablePartProps.v): The names are those of the file:
- `C102_labels_refuted` (TablePartProps.v): Rows of a Parquet file have distinct labels:
- `C110_merge_keeps_letters_refuted` (TextColProps.v): The expectation that merging keeps the letters of a profile is false if they are switched off in the other.
- `C114_empty_refuted` (TextDiffProps.v): A profile without data cannot be compared, and which error is raised depends on the side.
- `C114_case_refuted` (TextDiffProps.v): The same text, with and without capitals: words and counts are said to differ, though counting either spelling gives the same.
- `C114_top_refuted` (TextDiffProps.v): With a limit on the words shown, words that both have are said to be in one only; the limit of the second does not matter.
- `C28_given_stop_words_refuted` (TextProps.v): A user expects a word given as a stop word not to be counted. A stop word with a capital letter has no effect.
- `C29_no_stop_words_refuted` (TextProps.v): A user expects a merged profile not to report its stop words. If the first profile has all stop words of the second one and more, then words of the second one that are stop words are reported.
- `C29_commutative_refuted` (TextProps.v): A user expects the result of merging not to depend on the order of the profiles.
- `C111_at_most_elapsed_refuted` (TimesProps.v): The time of a name is at most the time that has passed: with a sketch of categories it is not.
- `C111_merging_keeps_operands_refuted` (TimesProps.v): Merging leaves both profiles as they are: the first column of orders gets one more second.
- `C111_merge_time_shown_refuted` (TimesProps.v): The time for merging correlations shows in the merged profile: it does not.
- `C99_plain_refuted` (TrainTableProps.v): The labeler that is shipped has the default label UNKNOWN, so that a table without a column of that name is refused unless a default label is given.
- `C99_pad_refuted` (TrainTableProps.v): A column called PAD that is not the first one takes the number zero away from PAD: the padding of all inputs then has the label of the column.
- `C99_cell_refuted` (TrainTableProps.v): The text of a cell depends on other columns: 7 beside a column of floats is not read as 7.
- `C99_ragged_refuted` (TrainTableProps.v): Rows of different lengths are not predicted cell by cell.
- `C39_string_refuted` (TypeProps.v): Short texts are called text instead of string after a merge:
- `C39_batching_refuted` (TypeProps.v): A column of dates has another type if a batch has only dates in May:
- `C32_single_word_refuted` (ULabelProps.v): A user expects every word of a text to be counted. A text that is a single word has no words.
- `C32_words_around_entity_refuted` (ULabelProps.v): A user expects an entity to end the word before it. The word before an entity that touches it runs on behind the entity, so that two words and the entity between them count as two words.
- `C89_unique_refuted` (UnstructProps.v): With equal row labels a blank line is given to the statistics, and a line with text is counted as empty.
- `C89_sampled_refuted` (UnstructProps.v): With equal labels lines that were not sampled are profiled.
- `C89_warning_refuted` (UnstructProps.v): A subsample of the lines is profiled without the warning.
- `C89_memory_refuted` (UnstructProps.v): The memory is that of all lines though only some were used.
- `C89_neutral_refuted` (UnstructProps.v): A new profile is no neutral element: it cannot be merged.
- `C89_names_refuted` (UnstructProps.v): The same text read as a list and as a table with one column cannot be merged.
- `C80_rows_refuted` (ValidatorProps.v): Rows with other labels: as pandas data the labels, as dask data the positions.
- `C80_texts_refuted` (ValidatorProps.v): Lists of texts do not work: they match no value, and a column of texts raises.
- `C80_stale_refuted` (ValidatorProps.v): The report of a validation still has the columns of earlier ones.
- `C80_failed_refuted` (ValidatorProps.v): After a validation that failed, the report is a mixture of the old one and part of the new one.

## Print Assumptions per theorem

Closed under the global context: C01_shuffle_is_permutation, C01_shuffle_is_unbiased, C02_reservoir_distinct_lines, C02_reservoir_small_file, C03_merge_list_is_ordered_tree, C03_merge_list_is_fold, C04_counts_are_occurrences, C04_never_stops_without_thresholds, C04_merge_succeeds, C04_merge_of_other_column_fails, C05_stopped_is_permanent, C05_stops_exactly_at_thresholds, C05_merge_stops_exactly_at_thresholds, C06_merge_of_stopped, C06_merge_of_stopped_reports_larger, C06_merge_adds_sample_sizes_refuted, C07_gini, C07_unalikeability, C08_minimum, C08_maximum, C08_minimum_exact, C08_maximum_exact, C08_single_batch_exact, C08_streaming_minimum_refuted, C08_streaming_maximum_refuted, C09_merged_extrema, C09_merge_commutative_associative, C10_sum_mean, C10_variance, C12_precision, C12_precision_variance_by_merging, C12_precision_variance_of_two_updates, C12_streamed_precision_variance_refuted, C13_rebinning_conserves, C13_merging_conserves, C13_rebinning_local, C13_merging_local, C14_merge_with_empty_drops_histogram, C14_empty_is_neutral_refuted, C14_update_after_merge_with_empty, C14_other_statistics_unchanged, C15_percentile_in_range, C15_percentile_monotone, C15_percentile_in_right_bin, C15_quantiles_monotone, C15_percentile_monotone_everywhere_refuted, C16_single_batch, C16_answers_exclusive, C17_order_of_history, C17_constant_iff, C17_contradiction_is_random, C17_random_is_permanent, C17_merge_commutative, C17_empty_is_neutral, C17_sample_size, C17_sorted_data_recognised, C17_two_batches, C17_constant_after_batch, C17_range_encloses, C17_values_of_one_kind, C17_ascending_means_sorted_refuted, C17_constant_means_one_value_refuted, C17_merge_associative_refuted, C17_mirror_refuted, C18_check_passes_iff, C18_pairing_is_bijection, C18_merge_of_empty_fails, C18_columns_receive_their_data, C18_update_outcome, C18_first_batch_accepted, C18_merge_outcome, C18_null_values_in_fixed_order, C18_update_atomic_refuted, C18_null_values_follow_column_refuted, C18_own_null_values_kept_refuted, C19_positions_never_collide, C19_as_many_positions_as_nulls, C19_positions_in_range, C19_negative_labels_refuted, C20_batch, C20_all_rows_examined, C20_update_succeeds, C20_merge_with_empty_fails, C20_null_ratio_of_last, C20_repeated_labels_refuted, C20_null_ratio_is_overall_refuted, C21_full, C21_distinct_rows, C21_independent_of_batching, C21_sketch, C21_sketch_of_a_set, C21_disabled, C21_columns_may_be_permuted_refuted, C23_profiles, C23_schedules, C23_table, C23_pool, C23_processes, C23_null_replication_refuted, C23_memory_refuted, C23_processors_refuted, C24_numbers, C24_numbers_swap, C24_missing, C24_strings, C24_bools, C24_bool_numbers, C24_dates, C24_self_unchanged_refuted, C25_lists, C25_lists_unchanged, C25_sets, C25_dict_entries, C25_dict_unchanged, C25_dict_succeeds, C25_dict_self, C25_parts, C25_parts_unchanged, C25_matrices, C25_list_unchanged_is_equal_refuted, C25_missing_key_unchanged_refuted, C25_dict_symmetric_refuted, C26_new, C26_save, C26_unknown_method, C26_unknown_load, C26_attributes, C26_same, C26_again, C26_report, C26_no_labeler, C26_save_columns, C26_graph, C26_correlation_refuted, C26_metrics_refuted, C26_ratio_refuted, C26_labeler_refuted, C26_failed_save_refuted, C26_empty_text_refuted, C26_method_refuted, C26_class_refuted, C26_graph_refuted, C27_full_no_interference, C27_sketch_merge_changes_left, C27_merge_keeps_operands_refuted, C27_unique_ratio_at_most_one_refuted, C27_merged_profile_is_independent_refuted, C28_character_classes, C28_split, C28_strip, C28_sample_size, C28_characters, C28_words, C28_most_common, C28_given_stop_words_refuted, C29_counts, C29_settings, C29_no_stop_words, C29_commutative, C29_lower_case, C29_no_stop_words_refuted, C29_commutative_refuted, C30_spans, C30_succeeds, C31_inputs, C31_round_trip, C31_labels, C31_batches, C31_label_row, C31_long_separator_refused, C31_labels_empty_separator_refuted, C32_predicted_characters, C32_characters, C32_words, C32_percentages, C32_succeeds, C32_single_word_refuted, C32_words_around_entity_refuted, C33_values, C33_sorted, C33_all, C33_floats, C33_rounding_refuted, C33_few_quantiles_refuted, C34_rows, C34_nothing_lost, C34_document, C34_payload, C34_records_stay_together_refuted, C35_find, C35_find_nothing, C35_load, C35_load_all, C35_limit, C35_limit_refuted, C35_whole_file_refuted, C35_chunk_size_refuted, C35_consecutive_refuted, C36_text_chunks, C36_not_text_is_an_error, C37_batches_cover_each_row_once, C37_partition, C38_total, C38_votes, C38_representation, C38_label, C38_added, C38_merge_refuted, C38_no_votes_refuted, C38_order_refuted, C38_gap_refuted, C38_rounding_refuted, C39_selected, C39_recognised, C39_always, C39_shares, C39_reported, C39_options, C39_string_refuted, C39_batching_refuted, C40_flat, C40_keys, C40_lost_refuted, C40_zero_refuted, C40_empty_refuted, C41_priors, C41_sums, C41_default_labels, C41_labels_refuted, C41_text_refuted, C41_order_refuted, C41_place_refuted, C41_date_refuted, C41_lost_refuted, C41_correlation_refuted, C41_correlation_numbers, C41_correlation_fails, C42_votes, C42_confidences, C42_succeeds, C42_one_prediction_per_text_refuted, C42_background_is_exclusive_refuted, C43_numbers_kept, C43_added, C43_accepted, C43_num_labels, C43_labels, C43_consecutive, C43_every_label_listed_refuted, C44_matrix, C44_matrix_exists, C44_counts, C44_scores, C44_scores_exist, C44_accuracy, C44_weighted_recall, C44_score, C44_same_positions_refuted, C44_perfect_predictions_refuted, C44_score_at_most_one_refuted, C45_component_all_or_nothing, C45_success, C45_malformed_request, C45_single_component, C45_warnings, C45_failed_call_changes_nothing_refuted, C45_valid_parameters_accepted_refuted, C46_other, C46_buffer, C46_path, C46_unopenable, C46_used_again_refuted, C46_position_refuted, C46_failure_cleans_up_refuted, C47_match_counts, C48_size, C48_monotone, C48_given, C48_merged, C49_empty_refuted, C50_length, C50_words, C50_separators, C50_last_word, C50_one_word, C50_last_character_refuted, C50_unanimous_word_refuted, C51_lines, C51_all_lines_refuted, C52_priority, C52_priority_succeeds, C52_random, C52_split, C52_settings_stay_valid, C52_order_required, C52_chosen_label_has_vote_refuted, C52_priority_has_an_order_refuted, C54_top_categories, C55_merge_thresholds, C55_merge_keeps_top_k_refuted, C55_merge_keeps_thresholds_refuted, C57_zeros_and_negatives, C58_histogram_total, C58_within, C59_percentiles_shift, C59_median_shift_refuted, C60_fold_splits_mass, C60_mad_zero_in_first_bin, C60_mad_mirror_refuted, C61_mode, C62_is_match, C63_rows_with_nulls, C63_rows_with_nulls_min_true, C63_counted_rows_unique, C63_all_null_at_most_some_null, C63_any_labels_refuted, C63_ratio_of_counted_rows_refuted, C64_label, C64_no_label, C64_confidence, C65_cell, C65_unanimous, C65_unmatched_cell, C65_unmatched_cell_is_default_refuted, C53_frequent_reported, C53_reported_counts, C53_exact, C53_sample_size, C53_succeeds, C53_update_after_merge_refuted, C53_associative_refuted, C53_incompatible_sizes_refuted, C67_text_lines, C67_record_lines, C67_one_line, C67_whole_lines, C67_no_records_refuted, C67_all_text_refuted, C68_nested, C68_values_kept_refuted, C68_any_keys_refuted, C69_keys, C69_succeeds, C69_any_records_refuted, C70_omit, C70_wildcards_refuted, C70_dotted_name_refuted, C70_caller_list_refuted, C71_dates, C71_sound, C71_all_dates, C71_may_refuted, C71_batching_refuted, C71_sampling_refuted, C72_merged, C72_updates, C72_several_refuted, C72_encoding_refuted, C72_empty_refuted, C73_test, C73_homogeneous, C73_symmetric, C73_p_value, C73_matrix, C73_merge_refuted, C73_constant_refuted, C75_column_profile, C75_compiler, C75_options, C75_column, C75_reload, C75_not_saved, C75_column_nulls, C75_flags, C75_metrics, C75_names_refuted, C75_mixed_names_refuted, C75_same_number_refuted, C75_column_nulls_refuted, C75_flags_refuted, C75_class_refuted, C75_metrics_refuted, C56_report, C56_times, C56_again, C56_flag, C56_text, C56_graph, C56_disabled_refuted, C56_enabled_refuted, C56_words_refuted, C56_pure_refuted, C76_one, C76_order, C76_full_name, C76_star, C76_single_unknown, C76_ignored, C76_overlap, C76_defaults, C76_presets, C76_unknown_refuted, C76_documented_refuted, C76_every_refuted, C76_error_refuted, C76_existing_refuted, C76_both_refuted, C77_valid, C77_dependencies, C77_defaults, C77_switch, C77_rows_refuted, C77_switches_refuted, C77_cms_refuted, C78_counts, C78_component, C78_connected, C78_attributes, C78_distributions, C78_defined, C78_empty, C78_most_edges_refuted, C78_missing_refuted, C78_failed_refuted, C78_large_refuted, C78_again_refuted, C78_moments_refuted, C79_columns, C79_match, C79_match_ends, C79_names, C79_graph, C79_profiled, C79_names_refuted, C79_text_refuted, C79_ends_refuted, C79_negative_refuted, C79_last_refuted, C79_plain_refuted, C79_empty_refuted, C80_exact, C80_defined, C80_rejected, C80_get, C80_frames, C80_rows_refuted, C80_texts_refuted, C80_stale_refuted, C80_failed_refuted, C81_predict, C81_answers, C81_case, C81_valid, C81_new, C81_set, C81_default_refuted, C81_set_refuted, C81_labels_refuted, C81_entries_refuted, C81_aligned_refuted, C81_include_refuted, C66_labels, C66_single, C66_spans, C66_entities, C66_last_refuted, C66_pad_refuted, C82_exact, C82_empty, C82_defaults, C82_typical, C82_wide, C82_alike, C82_words, C82_wide_refuted, C82_names_refuted, C82_data_refuted, C83_exact, C83_same, C83_table, C83_few, C83_single, C83_given, C83_other, C83_guessed, C83_trailing, C83_long, C83_blank_refuted, C83_none_refuted, C83_beginning_refuted, C83_quote_refuted, C83_small_refuted, C83_tab_refuted, C83_blanks_refuted, C84_join, C84_fields, C84_candidate, C84_shape, C84_accepted, C84_best, C84_none, C84_rows, C84_comma, C84_random_refuted, C84_late_refuted, C84_blanks_refuted, C85_arguments, C85_first, C85_given, C85_unknown, C85_data, C85_always, C85_kept, C85_remote, C85_s3, C85_prefix, C85_pop_refuted, C85_stops_refuted, C86_exact, C86_file, C86_bad, C86_table, C86_reload, C86_refuse, C86_format, C86_start, C86_encoding, C86_reload_refuted, C86_zero_refuted, C86_late_refuted, C86_graph_refuted, C87_exact, C87_size, C87_equal_refuted, C87_small_refuted, C88_keys, C88_entries, C88_base, C88_numeric, C88_special, C88_categories, C88_psi, C88_labels, C88_representation, C88_only, C88_error, C88_succeeds, C88_self, C88_global, C88_columns, C88_schema, C88_table_succeeds, C88_table_self, C88_always_refuted, C88_psi_refuted, C89_update, C89_sample, C89_small, C89_update_outcome, C89_merge_outcome, C89_merge_comm, C89_sample_lines, C89_sample_merge, C89_settings, C89_history, C89_complete, C89_complete_small, C89_report, C89_unique_refuted, C89_sampled_refuted, C89_warning_refuted, C89_memory_refuted, C89_neutral_refuted, C89_names_refuted, C89_names_update, C90_histogram_total, C90_merged_counts_have_no_report, C90_merged_user_count, C90_choice, C90_choice_first, C90_report_again, C90_bins, C90_bins_merged, C90_user_count, C90_report_keeps_data, C90_report_neutral, C90_merge_with_empty, C90_smallest_loss_refuted, C90_report_changes_later_refuted, C90_bin_limit_after_merge_refuted, C92_alternatives, C92_error, C92_words, C92_default, C92_flags, C92_columns, C92_none, C92_more, C92_case_refuted, C92_none_refuted, C92_more_refuted, C92_literal_refuted, C93_statistics, C93_calculations, C93_settings, C93_quantiles, C93_symmetric, C93_needs_sum, C93_mean_refuted, C93_quantiles_refuted, C94_kind, C94_given, C94_given_tables, C94_outcome, C94_graph, C94_options, C94_stays, C94_shared, C94_default, C94_update, C94_takes, C94_text_files, C94_refused, C94_labels_refuted, C94_failure_refuted, C94_zero_refuted, C95_outcome, C95_errors, C95_merged, C95_history, C95_sound, C95_chi2, C95_corr, C95_metrics, C95_metrics_merge, C95_report, C95_restart, C95_order_refuted, C95_reload_refuted, C95_covers_refuted, C96_rounds, C96_sizes, C96_all, C96_invalid, C96_no_epochs, C96_unused_refuted, C96_failure_refuted, C97_save, C97_roundtrip, C97_equal, C97_last, C97_failed, C97_options, C97_equal_refuted, C97_atomic_refuted, C97_labels_refuted, C97_case_refuted, C97_weights_refuted, C98_list, C98_dict, C98_accepts, C98_failed, C98_builds, C98_refused, C98_no_net, C98_order, C98_batches, C98_texts, C98_renamed_refuted, C98_pad_refuted, C98_default_refuted, C98_saved_refuted, C98_short_batch_refuted, C99_rows, C99_position, C99_ragged, C99_other, C99_table, C99_cells, C99_labels, C99_default, C99_trains, C99_data, C99_saved, C99_plain_refuted, C99_pad_refuted, C99_cell_refuted, C99_ragged_refuted, C100_float, C100_one_number, C100_int_reads, C100_words, C100_blanks, C100_large, C100_whole, C100_close, C100_near, C100_tiny, C100_digits, C100_counts, C100_whole_refuted, C100_zero_refuted, C100_huge_refuted, C101_document, C101_any_keys, C101_lines, C101_flat, C101_lists, C101_values, C101_mixed, C101_mixed_error, C101_selected, C101_rows, C101_recognised, C101_loaded, C101_same_table_refuted, C101_every_key_refuted, C101_every_value_refuted, C101_order_refuted, C101_half_refuted, C101_table_refuted, C102_sample, C102_sample_no_header, C102_small_file, C102_lines, C102_zero_rows, C102_parquet, C102_parquet_labels, C102_parquet_sample, C102_rows_refuted, C102_readable_refuted, C102_count_refuted, C102_names_refuted, C102_labels_refuted, C103_batches, C103_range, C103_value, C103_perfect, C103_averages, C103_accuracy, C103_report, C103_make, C103_made, C103_make_errors, C103_perfect_macro_refuted, C103_one_prediction_refuted, C104_all, C104_by_name, C104_by_position, C104_refused, C104_bars, C104_missing, C104_missing_within, C104_columns_drawn, C104_colours_differ, C104_drawn, C104_missing_refuted, C104_sorted_refuted, C104_names_refuted, C104_empty_refuted, C105_repeat, C105_set_seed, C105_variable, C105_accepts, C105_nothing, C105_unseeded, C105_all, C105_other_rows_refuted, C105_sample_refuted, C105_order_refuted, C106_utf8, C106_sample, C106_first_guess, C106_detect, C106_small_letters, C106_whole_passes, C106_short_files, C106_read, C106_utf8_files, C106_reader, C106_system, C106_set, C106_crlf_refuted, C106_beyond_refuted, C107_fails, C107_kinds, C107_made, C107_types, C107_others, C107_change, C107_set, C107_apart, C107_loaded_apart, C107_same, C107_equal, C107_saved, C107_reload, C107_comes_back, C107_independent_refuted, C107_own_directory_refuted, C107_changed_refuted, C107_nothing_refuted, C107_class_refuted, C108_half, C108_mass, C108_between, C108_reported, C108_small_scale_refuted, C108_widths_refuted, C109_cell, C109_nearest_unique, C109_counts, C109_integers, C109_floats, C109_floats_are_numbers_refuted, C110_lengths, C110_letters, C110_categories, C110_merge_keeps_letters_refuted, C111_recorded, C111_elapsed, C111_merged, C111_operands, C111_updates, C111_names, C111_at_most_elapsed_refuted, C111_merging_keeps_operands_refuted, C111_merge_time_shown_refuted, C112_first, C112_value_error, C112_next, C112_name, C112_first_failed, C112_history, C112_merge, C112_merge_refused, C112_atomic_refuted, C112_labels_refuted, C113_cells, C113_count, C113_names, C113_same, C113_merge, C113_new_labels_refuted, C113_failed_refuted, C113_merged_update_refuted, C114_vocab, C114_words, C114_all, C114_lower_first, C114_lower_second, C114_self, C114_labels, C114_global, C114_sections, C114_succeeds, C114_empty_refuted, C114_case_refuted, C114_top_refuted, C115_own, C115_computed, C115_length, C115_forward, C115_inner_error, C115_other_error, C115_load_error, C115_load_attribute_error, C115_once, C115_lazy, C115_columns_refuted, C115_load_error_refuted, C116_schema, C116_serializable, C116_report, C116_plain, C116_lost_refuted, C116_diff, C116_diff_shown, C116_diff_plain, C116_diff_fails, C116_empty_refuted.

Standard library axioms `ClassicalDedekindReals.sig_forall_dec`, `ClassicalDedekindReals.sig_not_dec`, `Classical_Prop.classic`, `FunctionalExtensionality.functional_extensionality_dep`: C49_defined, C49_common, C49_given, C49_zero, C49_symmetric, C49_categories, C49_identical_refuted, C49_index_refuted, C49_ranges_refuted, C49_disjoint_refuted, C49_categories_refuted, C91_sqrt, C91_rice, C91_sturges, C91_auto, C91_fd, C91_scott, C91_doane, C91_at_least_one_bin, C91_unit_free, C91_limit_refuted.

Standard library axioms `ClassicalDedekindReals.sig_forall_dec`, `ClassicalDedekindReals.sig_not_dec`, `FunctionalExtensionality.functional_extensionality_dep`: C11_skewness, C11_kurtosis, C11_constant_kurtosis_refuted, C11_small_values_refuted, C22_correlation, C22_blank, C22_constant_batch_refuted, C22_text_column_refuted, C22_uncorrected_refuted, C22_nulls_refuted, C22_column_order_refuted, C74_defined, C74_swap, C74_degrees, C74_units, C74_p_value.


## Note on library axioms

`coqchk` and similar tools list `Coq.ssr.ssrunder.Under_rel.*`. These belong to the standard library's ssreflect
plugin support module, which the standard library loads itself; no theorem here depends on them
(see the `Print Assumptions` output of each Props file).

With the real numbers of the standard library (C11) such tools also list `Coq.Reals.Rdefinitions.RbaseSymbolsImpl.*`,
`RinvImpl.*` (the library's sealed definitions of the real numbers), `Coq.Logic.Classical_Prop.classic` (loaded by the
library, not used), `ClassicalDedekindReals.sig_forall_dec`, `sig_not_dec` and `functional_extensionality_dep`; the
last three are what `Print Assumptions` lists for the theorems named above.
