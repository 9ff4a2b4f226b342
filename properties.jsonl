{"id": "C01", "title": "Shuffled sampling order visits every row exactly once", "statement": "Profiling samples rows in the order given by shuffle_in_chunks. Whatever the random generator returns, the concatenation of the yielded chunks is a permutation of 0..n-1, every chunk has exactly chunk_size entries except the last which has the remainder, and an empty data set yields nothing.", "quantifier": "for every data length, every positive chunk size and every sequence of draws a generator may return inside the requested ranges", "why_tests_cant": "A unit test fixes a seed; the claim ranges over all n!-many draw sequences and all n.", "anchors": ["dataprofiler/profilers/profiler_utils.py: shuffle_in_chunks, KeyDict"]}
{"id": "C02", "title": "Reservoir sampling returns distinct lines of the file", "statement": "Sampling k rows of an m line file returns exactly min(k,m) lines, taken from pairwise distinct positions of the file, for whatever random skips and eviction positions the generator produces; with m <= k the file is returned unchanged and in order.", "quantifier": "for every file, every k >= 1 and every sequence of generator draws", "why_tests_cant": "The sampled set depends on the draws; tests only see one stream.", "anchors": ["dataprofiler/data_readers/data_utils.py: reservoir"]}
{"id": "C03", "title": "Merging a list of profiles uses every profile once and in order", "statement": "merge_profile_list on a non-empty list terminates and yields one profile which is a merge of all inputs, each used exactly once and left to right; for an associative merge the result equals merging them one after the other.", "quantifier": "for every list length and every merge operation (associative or not)", "why_tests_cant": "The tree shape depends on the list length (odd tails, powers of two), tests try a few.", "anchors": ["dataprofiler/profilers/profiler_utils.py: merge_profile_list, chunk, merge"]}
{"id": "C04", "title": "Category counts do not depend on how the data was batched", "statement": "As long as no stop condition triggers, the counts a categorical profile reports after any sequence of updates are, for every category, the number of occurrences of that category in all the data, the counts sum to the sample size, and two profiles merged report the counts of the concatenated data.", "quantifier": "for every sequence of batches, every way to split it into profiles, every value", "why_tests_cant": "Requires all batchings of all data.", "anchors": ["dataprofiler/profilers/categorical_column_profile.py: CategoricalColumn.update, _update_categories, __add__", "dataprofiler/profilers/profiler_utils.py: add_nested_dictionaries"]}
{"id": "C05", "title": "The category stop condition is evaluated on true totals and is permanent", "statement": "Once a categorical profile has stopped it reports no categories, never counts again, keeps the unique count and ratio it stopped with and is never reported as categorical, whatever updates follow; and it stops in an update exactly when both thresholds are configured and the sample size and unique ratio including that batch reach them.", "quantifier": "for every history of updates and every threshold configuration", "why_tests_cant": "It is a property of all continuations of a history.", "anchors": ["dataprofiler/profilers/categorical_column_profile.py: _update_stop_condition, _check_stop_condition_is_met, update, is_match, unique_count, unique_ratio"]}
{"id": "C06", "title": "Merging categorical profiles when one has stopped", "statement": "Merging two categorical profiles of which one has stopped gives a stopped profile; the merged sample size should be the number of rows seen by both. The code instead keeps the sample size of the larger profile, so rows are lost: this is stated exactly and refuted as a sum.", "quantifier": "for every pair of profiles", "why_tests_cant": "Exhaustive over states of both operands.", "anchors": ["dataprofiler/profilers/categorical_column_profile.py: CategoricalColumn.__add__"]}
{"id": "C07", "title": "Gini impurity and unalikeability are well-defined fractions", "statement": "For every profile the reported gini impurity is 1 minus the sum of squared category shares and lies in [0,1), being 0 exactly when at most one category occurs; unalikeability lies in [0,1], is the share of ordered pairs of distinct rows with different values, is 0 exactly when all rows agree and 1 exactly when all rows differ.", "quantifier": "for every non-empty multiset of categories", "why_tests_cant": "Needs real inequalities over all count vectors.", "anchors": ["dataprofiler/profilers/categorical_column_profile.py: gini_impurity, unalikeability"]}
{"id": "C08", "title": "Streaming minimum and maximum", "statement": "A user expects the reported minimum (maximum) after any sequence of updates to be the minimum (maximum) of all values seen. The code forgets a running value which equals 0. So after any updates and merges the reported minimum (maximum) is one of the values and is the right one, with one exception: if the true minimum (maximum) is 0, a positive (negative) value can be reported instead.", "quantifier": "for every history of updates and merges of numeric data", "why_tests_cant": "Depends on the running value before each batch, i.e. on histories.", "anchors": ["dataprofiler/profilers/numerical_column_stats.py: _get_min, _get_max"]}
{"id": "C09", "title": "Merged minimum and maximum", "statement": "The minimum (maximum) of two merged numeric profiles is the minimum (maximum) of the values of both, for each combination of empty and non-empty profiles, and merging is commutative and associative.", "quantifier": "for all pairs and triples of profiles", "why_tests_cant": "All combinations of missing and present values, including 0.", "anchors": ["dataprofiler/profilers/numerical_column_stats.py: _add_helper"]}
{"id": "C10", "title": "Mean and variance do not depend on batching or merging", "statement": "For finite data the reported sum, mean and variance after any sequence of updates, or after merging profiles over any tree, equal the mean and the (population or sample) variance of all values; with fewer than two values the unbiased variance is nan.", "quantifier": "for every list of batches and every merge tree, in exact arithmetic", "why_tests_cant": "The update formula is only correct if it is correct for every partition.", "anchors": ["dataprofiler/profilers/numerical_column_stats.py: _get_sum, mean, _get_variance, _update_variance, _merge_biased_variance, _correct_bias_variance, _add_helper"]}
{"id": "C11", "title": "Skewness and kurtosis do not depend on batching", "statement": "However the values come in batches and merged profiles, the skewness reported is that of all values (mean cubed deviation over the cubed standard deviation, or the usual unbiased estimator; 0 for equal values; nan for fewer than 3 values with bias correction), and so is the excess kurtosis if the values are not all equal. Refuted expectations: the kurtosis of equal values does not depend on batching (it is -3 in one batch and 0 in two), and skewness does not depend on the unit (that of small values is 0).", "quantifier": "for all histories of updates and merges, in exact real arithmetic; the moments of a batch are 0 or at least 1e-14", "why_tests_cant": "Fourth order merge formulas for all partitions.", "anchors": ["dataprofiler/profilers/numerical_column_stats.py: _merge_biased_skewness, _merge_biased_kurtosis, _get_skewness, _get_kurtosis, _correct_bias_skewness, _correct_bias_kurtosis", "dataprofiler/profilers/profiler_utils.py: biased_skew, biased_kurt"]}
{"id": "C12", "title": "Float precision statistics under streaming", "statement": "A user expects the precision statistics of a float column (min, max, sum, mean, variance of significant figures) to be those of all sampled values. They are, except the variance: because the sample size is advanced before the variance is merged, the streamed variance differs from the true one, while merging separate profiles is right.", "quantifier": "for every sequence of batches", "why_tests_cant": "Single batch tests cannot see it; it needs two non-trivial batches.", "anchors": ["dataprofiler/profilers/float_column_profile.py: _update_precision, __add__"]}
{"id": "C13", "title": "Rebinning a histogram conserves the total count", "statement": "When a stored histogram is re-binned, for merging two profiles or for choosing a report histogram, the total count in the new bins equals the total count in the old bins, no bin count becomes negative and no count is written outside the new bins, for any increasing bin edges covering the old range.", "quantifier": "for all bin edge vectors and counts", "why_tests_cant": "The straddling logic has a cursor which depends on the entire prefix.", "anchors": ["dataprofiler/profilers/numerical_column_stats.py: _assimilate_histogram, _regenerate_histogram, _add_helper_merge_profile_histograms"]}
{"id": "C14", "title": "Merging with an empty profile keeps the histogram statistics", "statement": "A user expects adding an empty profile to change nothing. For the histogram this is false: when exactly one operand has a histogram the merged profile has none, so its median, mode and median absolute deviation are undefined although data was seen. All other numeric statistics are unchanged.", "quantifier": "for every non-empty profile", "why_tests_cant": "Identity law over all states.", "anchors": ["dataprofiler/profilers/numerical_column_stats.py: _add_helper, _add_helper_merge_profile_histograms, _has_histogram"]}
{"id": "C15", "title": "Percentiles are monotone and inside the data range", "statement": "Percentiles estimated from a histogram are monotone in the requested percentage and always lie between the first and the last bin edge.", "quantifier": "for every histogram with increasing edges and non-negative counts with positive sum, and all percentages in [0,100]", "why_tests_cant": "Linear interpolation over arbitrary cumulative vectors.", "anchors": ["dataprofiler/profilers/numerical_column_stats.py: _get_percentile, _get_quantiles"]}
{"id": "C16", "title": "Order of a single batch", "statement": "The order reported for one batch is constant value exactly when all values are equal, ascending (descending) exactly when the values are weakly sorted and not constant, random otherwise; first and last are the first value and the last value examined.", "quantifier": "for every non-empty batch of totally ordered values", "why_tests_cant": "Loop with early exit over all sequences.", "anchors": ["dataprofiler/profilers/order_column_profile.py: _get_data_order"]}
{"id": "C17", "title": "Order over several batches", "statement": "The order after any sequence of updates and merges: constant value exactly when every batch is constant; ascending (descending) only if every batch rises (falls) and one is not constant; random is permanent; data sorted over the whole history, with some batch not constant, are recognised; two batches of one direction keep it exactly when their ranges do not overlap; merging is commutative and an empty profile is neutral. Users also expect that ascending means ascending data, that constant value means one value, that grouping of merges does not matter and that negated data exchange ascending and descending; all four are false of the code.", "quantifier": "for every history of updates and merges over numbers and text", "why_tests_cant": "Needs all histories; the merge logic has 4x4 order combinations with interval conditions and a piecewise flag.", "anchors": ["dataprofiler/profilers/order_column_profile.py: _merge_order, _is_intersecting, _is_enveloping, _update_order, __add__"]}
{"id": "C18", "title": "Schema matching pairs columns one to one", "statement": "When two structured profiles are merged or a new batch is profiled, the schema check succeeds exactly if each (case-insensitive) name occurs equally often on both sides and names occurring more than once do so at the same positions; then columns are paired one to one and by name. After any history of batches and merges the columns are those of the first batch and each has taken in exactly the cells of the column of its name of every batch, in order. A rejected batch raises ValueError. Findings: the check ignores case but a later step does not, so a batch named in another case fails after its null counts were added; column_null_values are looked up by the position in each batch, so permuted columns get another column's null values.", "quantifier": "for all schemas, including duplicates, empty schemas and permutations, and all histories", "why_tests_cant": "Combinatorics of names and positions over unbounded histories.", "anchors": ["dataprofiler/profilers/profile_builder.py: _get_and_validate_schema_mapping, _update_profile_from_chunk, StructuredProfiler.__add__, StructuredColProfiler.update_column_profilers"]}
{"id": "C19", "title": "Row positions of nulls never collide across batches", "statement": "When batches are profiled one after the other, whether or not their index ranges overlap, the set of null row positions kept for a column has as many elements as the reported null count, and is exactly the set of (shifted) labels of the null cells, provided each batch has distinct non-negative integer labels. With negative labels this fails: refuted.", "quantifier": "for every history of batches", "why_tests_cant": "Needs histories with overlapping and disjoint index ranges.", "anchors": ["dataprofiler/profilers/profile_builder.py: StructuredColProfiler._update_base_stats"]}
{"id": "C20", "title": "Null and sample counts of a column", "statement": "For a batch with distinct row labels the reported sample size, null count and null types are those of the rows examined: null count + number of cleaned values = sample size, each null row is listed under exactly its own value. With repeated row labels (which the parquet reader produces) the null count is wrong: refuted. The null ratio kept beside the counts (used by diff) is that of the last batch only, and merging with a column profile that has seen no row fails.", "quantifier": "for every batch, every null-value pattern set and every sampling order", "why_tests_cant": "Sampling order is random; labels are arbitrary.", "anchors": ["dataprofiler/profilers/profile_builder.py: clean_data_and_get_base_stats"]}
{"id": "C21", "title": "Row duplicate and uniqueness statistics", "statement": "For full-hashing mode the reported duplicate row count is total rows minus distinct row hashes, unique ratio is distinct over total; both are independent of batching and of merging order, 0 <= duplicates <= total. With the HyperLogLog sketch the report is that of the sketch of the set of all rows. A row given again with permuted columns is not recognised as a duplicate: refuted.", "quantifier": "for all histories and merge trees", "why_tests_cant": "All partitions of the rows.", "anchors": ["dataprofiler/profilers/profile_builder.py: _update_row_statistics, _get_unique_row_ratio, _get_duplicate_row_count, StructuredProfiler.__add__"]}
{"id": "C22", "title": "Correlations do not depend on how the rows are batched", "statement": "However the rows of a table are split into update batches and merged profiles, the reported correlation of two numeric columns is the Pearson correlation of all rows, if no batch has nulls or a numeric column that is constant; entries of other columns are nan, and a profile without rows has no matrix. A profile with nothing but nulls changes no correlation of the profile it is merged with. Merging moreover needs that all columns are numeric and come in the same order, and bias correction: a constant column in one batch makes the entry nan for good, a text column makes merging fail, nulls make the result depend on the batching, another column order or uncorrected standard deviations make it wrong (refuted).", "quantifier": "for every history of batches and merges of complete rows, in exact real arithmetic", "why_tests_cant": "Algebraic identity over all data and all histories.", "anchors": ["dataprofiler/profilers/profile_builder.py: StructuredProfiler._update_correlation, _get_correlation, _merge_correlation, _merge_correlation_helper, _get_correlation_dependent_properties"]}
{"id": "C23", "title": "Multiprocess column profiling is schedule independent", "statement": "Updating the profiles of a table in a pool of processes gives the same column profiles as updating them in a single process, whichever submissions to the pool are refused, whichever tasks fail and are done again, and whatever the number of processes; an update fails in the pool exactly if it fails in a single process. A pool sized automatically has more than two processes, fewer than the processors and at most one per column. Refuted expectations: null replication metrics do not depend on the pool; pool sizes keep to the free memory and leave processors to others.", "quantifier": "for every table, every pattern of refused submissions and failed tasks and every pool size", "why_tests_cant": "Failures of worker processes are schedules a test cannot enumerate.", "anchors": ["dataprofiler/profilers/column_profile_compilers.py: BaseCompiler.update_profile", "dataprofiler/profilers/profile_builder.py: StructuredProfiler._update_profile_from_chunk", "dataprofiler/profilers/profiler_utils.py: generate_pool, suggest_cpu"]}
{"id": "C24", "title": "Differences of numbers, strings and dates", "statement": "diff of a statistic with itself is 'unchanged'; 'unchanged' is reported only for equal values; otherwise the difference of two numbers a-b is reported (so swapping negates it) and a pair [a,b] whenever one is missing or the values are strings; where numbers are compared True counts as 1 and False as 0.", "quantifier": "for all values, including missing ones", "why_tests_cant": "Equational laws for all values.", "anchors": ["dataprofiler/profilers/profiler_utils.py: find_diff_of_numbers, find_diff_of_strings_and_bools, find_diff_of_dates"]}
{"id": "C25", "title": "Differences of lists, sets and dictionaries", "statement": "For sets, diff reports unchanged exactly when they are equal, else the elements only in the first, the shared, and only in the second, which partition the union. For dictionaries unchanged is reported exactly when all keys and values agree. For lists with repetitions unchanged can be reported for different multisets (refuted).", "quantifier": "for all lists, sets and dictionaries", "why_tests_cant": "Partition laws over all collections.", "anchors": ["dataprofiler/profilers/profiler_utils.py: find_diff_of_lists_and_sets, find_diff_of_dicts, find_diff_of_dicts_with_diff_keys"]}
{"id": "C26", "title": "Saved profiles reload to the same profile", "statement": "A user expects that saving a profile leaves it as it was and that loading the file gives it back. Saving a profile whose labelers agree succeeds and changes nothing; the profile loaded has the same class, options and attributes except those no pickle holds (correlation matrix, null replication metrics, sampling ratio, minimum sample size), which get their first values, and its columns are labelled by the labeler found on disk; it is the profile saved exactly if those had their first values and the labelers were already those; a profile once loaded can be saved and loaded without change; without correlations and null replication metrics and with the standard labeler the reports agree; graph profiles come back whole by their own class; unknown methods are refused. Refuted: correlations survive; the report of a loaded profile with null replication metrics works (it raises); the sampling ratio survives; a labeler of the user's own survives; a failed save leaves the profile as it was (its labelers are lost); a text profile without data can be saved; the method pickle loads only pickles; a class loads only files of its own; the file of a graph profile is refused by the general loader (it gives an empty table profile).", "quantifier": "for every profile state, every file and every loading method", "why_tests_cant": "Quantifies over all states; tests compare a few fields of profiles without these options.", "anchors": ["dataprofiler/profilers/profile_builder.py: StructuredProfiler.save, UnstructuredProfiler.save, BaseProfiler.load, _pkl_save_helper, _remove_data_labelers, _restore_data_labelers", "dataprofiler/profilers/graph_profiler.py: save, load"]}
{"id": "C27", "title": "Merging does not modify its operands", "statement": "A user expects a + b to leave a and b as they were. With full row hashing this holds for the statistics of rows (the times of the operands do change, see C111); with the HyperLogLog option the merged profile shares the left operand's sketch and the merge updates it, so the left operand changes (refuted).", "quantifier": "for every pair of profiles", "why_tests_cant": "Aliasing is invisible to value comparisons of the result only.", "anchors": ["dataprofiler/profilers/profile_builder.py: StructuredProfiler.__add__"]}
{"id": "C28", "title": "Word and vocabulary counts of free text", "statement": "The character and word counts reported for unstructured text are those of all its texts however they are cut into updates; words are the pieces between white space with the punctuation around them removed; with case sensitivity off they are counts of the lower-cased words; no stop word and no empty word is counted; the sample size is the number of texts; the most common characters and words are in descending order of count and none left out is more common. A user who gives stop words expects them not to be reported; one with a capital letter still is (refuted).", "quantifier": "for all histories of text batches", "why_tests_cant": "All batchings of all texts.", "anchors": ["dataprofiler/profilers/unstructured_text_profile.py: _update_vocab, _update_words, update"]}
{"id": "C29", "title": "Merging free-text profiles", "statement": "The merged profile counts each character and each word that is not a stop word of the merged profile as often as both together (lower-cased if only one profile is case sensitive); the merged settings and stop words are as documented; merging in the other order gives the same counts whenever neither profile's stop words strictly contain the other's. A user expects that no stop word of either profile is reported after merging, and that merging commutes; both fail otherwise (refuted).", "quantifier": "for all pairs of profiles", "why_tests_cant": "Option combinations times data.", "anchors": ["dataprofiler/profilers/unstructured_text_profile.py: _merge_words, _merge_vocab, __add__"]}
{"id": "C30", "title": "Entity spans are exactly the maximal labelled runs", "statement": "Converting character predictions to entity spans yields, per text, spans that are non-empty, ordered, pairwise disjoint, each carrying the one label all its characters have, covering exactly the characters whose label is neither pad nor background, and adjacent spans with the same label never touch.", "quantifier": "for every prediction vector and label mapping", "why_tests_cant": "Run-length structure over all sequences.", "anchors": ["dataprofiler/labelers/data_processing.py: CharPostprocessor.convert_to_NER_format"]}
{"id": "C31", "title": "Predictions are returned to the text they were made for", "statement": "Texts are cut or joined into model inputs, predicted, and the predictions are cut back: every text receives exactly one prediction per character, namely the prediction made for that very character, for any cutting and joining parameters; each model input is non-empty and at most max_length long.", "quantifier": "for all lists of texts, all max_length, separators, flatten ratios", "why_tests_cant": "The carry-over of partially filled inputs depends on the whole prefix.", "anchors": ["dataprofiler/labelers/data_processing.py: CharPreprocessor._process_batch_helper, _find_nearest_sentence_break_before_ind, CharPostprocessor.match_sentence_lengths"]}
{"id": "C32", "title": "Label counts of unstructured data", "statement": "Each profiled text contributes each of its predictions to the raw character counts, each character under the label of the entity that covers it (or unknown) to the post-processed counts, and each entity to the word counts; the reported percentages are non-negative and sum to 1 when anything was counted; merging adds counts. Words outside entities count as unknown; a user expects each such word to be counted, but the last word of a text and a word touching an entity are not (refuted).", "quantifier": "for all texts, predictions and span lists produced by the labeler", "why_tests_cant": "Telescoping sums over arbitrary spans.", "anchors": ["dataprofiler/profilers/unstructured_labeler_profile.py: _update_true_char_label_counts, _update_postprocess_char_label_counts, _get_percentages, __add__"]}
{"id": "C33", "title": "Quantile groups of the report", "statement": "For any number of groups between 1 and the number of stored quantiles plus one, exactly groups-1 values are reported, the i-th is the first stored quantile at or above the level i/groups, so they are non-decreasing, and one group more than stored quantiles gives all of them. Two expectations are refuted: with double precision numbers the same holds for any number of groups (for the default number of stored quantiles it does up to 29 groups, with 30 groups another value than the median is shown for it), and a report of one or two stored quantiles can always be made (an invalid group number falls back to 4 groups, which raises an error).", "quantifier": "for all quantile lists and group numbers", "why_tests_cant": "Index arithmetic with ceil for all sizes.", "anchors": ["dataprofiler/profilers/helpers/report_helpers.py: calculate_quantiles"]}
{"id": "C34", "title": "Flattened JSON keeps every value", "statement": "The table made from a JSON document has, under the joined keys, exactly the values of the document: nothing is lost or added, no row contains a key twice, row number j has for each key the j-th value of this key, and there are as many rows as values of some key (or one). The payload chosen as data is one with the most rows. A user expects the values of one record to be in the same row: refuted, a record that lacks a key takes the value of a later record.", "quantifier": "for all documents whose keys do not end like the separator, and for all lists of key/value pairs", "why_tests_cant": "Arbitrary nesting, and greedy placement over arbitrary sequences.", "anchors": ["dataprofiler/data_readers/json_data.py: _coalesce_dicts, _find_data, _get_data_as_flattened_dataframe"]}
{"id": "C35", "title": "Reading the beginning of a file", "statement": "Reading a bounded sample of a file as a string returns a beginning of the file with fewer line ends than the line limit; it ends with the file, before a line end, at the byte limit or before the last character, and it is less than one chunk longer than the limit (within it if the chunk size divides it). If the limits are not reached and the last chunk is not a single character, the whole file is returned. The search for the n-th line end returns the n-th, or the length and the number found. Refuted expectations: the byte limit is kept for all chunk sizes, a file within the limits is returned as a whole, the result does not depend on the chunk size, consecutive matches of a longer query count once.", "quantifier": "for all files, limits and chunk sizes of at least 2", "why_tests_cant": "Chunk boundaries at every possible position.", "anchors": ["dataprofiler/data_readers/data_utils.py: load_as_str_from_file, find_nth_loc"]}
{"id": "C36", "title": "Text data is cut without loss", "statement": "The chunks of a text data set concatenate to the full text, each has at most samples_per_line characters and none is empty.", "quantifier": "for all texts and all positive chunk sizes", "why_tests_cant": "All lengths and boundaries.", "anchors": ["dataprofiler/data_readers/text_data.py: _get_data_as_text"]}
{"id": "C37", "title": "Batch generation covers each row once", "statement": "get_batch_generator yields each row exactly once over all batches, every batch having batch_size rows except the last, for every random permutation.", "quantifier": "for all data, batch sizes and permutations", "why_tests_cant": "All permutations.", "anchors": ["dataprofiler/data_readers/base_data.py: get_batch_generator"]}
{"id": "C38", "title": "Labels of a column", "statement": "However a column's label predictions are batched, the votes of a label are the number of cells whose best label it is with enough confidence, and its average prediction is the mean of its confidences. The label representation gives each label its share of the votes, these are between 0 and 1 and add up to 1 if any cell voted. The reported label is empty if no label has 35% of the votes, and otherwise lists at most three labels in order of their votes, the first with the most votes and the others within 20% of it. Profiles can be merged exactly if both have no data, or each of them has had a cell that voted or a report of it has been read. Refuted expectations: merging with an empty profile works, profiles that both have data can be merged (not if no cell of one was labelled with confidence and no report of it has been read), the reported label does not depend on the order of a set, label mappings may have gaps, and the 20% limit is exact.", "quantifier": "for all histories of updates and merges, all predictions and all label mappings without gaps", "why_tests_cant": "All prediction histories and all ways of merging; tests have a few cells.", "anchors": ["dataprofiler/profilers/data_labeler_column_profile.py: _update_predictions, label_representation, avg_predictions, data_label, __add__"]}
{"id": "C39", "title": "Selected data type", "statement": "The data type of a column is the first of datetime, int, float, text that is enabled and that all values fit, after any updates and merges, as long as dates are recognised; otherwise it may only be the first one besides datetime. With a text profile every column with values has a data type, and no value ever fails to fit it. The share reported for int and float is the share of the values that fit. After an update the report calls texts string if none has more than 255 characters. Profiles with different types enabled cannot be merged. Refuted expectations: merged profiles of short texts report string, and a column of dates has the same type whatever the batches.", "quantifier": "for all histories of updates and merges, all sets of enabled types and all values", "why_tests_cant": "All subsets of enabled types, all batchings, and the random samples used to recognise dates.", "anchors": ["dataprofiler/profilers/column_profile_compilers.py: ColumnPrimitiveTypeProfileCompiler.selected_data_type", "dataprofiler/profilers/base_column_profilers.py: BaseColumnPrimitiveTypeProfiler", "dataprofiler/profilers/int_column_profile.py: data_type_ratio", "dataprofiler/profilers/text_column_profile.py: update"]}
{"id": "C40", "title": "Flattened reports keep every entry", "statement": "The flat report format contains every leaf of the nested report under its path, provided no two paths flatten to the same key; in every case its keys are those of the paths, and a value is that of a leaf with that key. Refuted expectations: entries are kept if keys collide (one is silently lost), the entries below the key 0 keep it in their name, and an empty dictionary remains visible.", "quantifier": "for all nested reports", "why_tests_cant": "All trees of keys.", "anchors": ["dataprofiler/profilers/helpers/report_helpers.py: flat_dict"]}
{"id": "C41", "title": "Null replication metrics", "statement": "A column has null replication metrics exactly if it has a null; its two class priors are the shares of rows where it is given and where it is null. For tables of numbers the class sums are the sums of each other column over these rows and the class means are the sums divided by their number, whatever the updates and merges, if rows are labelled 0, 1, ... in each batch as they are by default. Refuted expectations: this holds for other row labels, for columns of texts (lengths are mixed with numbers), for batches with columns in another order and for merged tables with columns in another order; tables with a column of dates can be merged; tables with a column of texts and nulls can be profiled when correlations are enabled; no sum is lost when a column has no values in one of the merged tables. Tables of numbers get the same metrics with correlations as without; otherwise profiling fails exactly if a column has nulls and the others are not all numbers, unless exactly one of them is or there are only two columns.", "quantifier": "for all histories of updates and merges, all tables of numbers and nulls", "why_tests_cant": "All partitions of rows into batches and tables; tests have one small table.", "anchors": ["dataprofiler/profilers/profile_builder.py: _update_null_replication_metrics, _merge_null_replication_metrics"]}
{"id": "C42", "title": "Regex labeler predictions", "statement": "For every text there is one row of votes per character. A label other than the default one has a vote exactly where one of its patterns matches; the default label has one where nothing matches and none where only others match. Confidences of a character add up to 1. Prediction fails only if a label with patterns is not in the label mapping.", "quantifier": "for all pattern matchers, pattern tables, label mappings and texts", "why_tests_cant": "Overlapping matches of any number of patterns in any order.", "anchors": ["dataprofiler/labelers/regex_model.py: RegexModel.predict"]}
{"id": "C43", "title": "Label mapping bookkeeping", "statement": "Adding a label never changes the number of an existing label and gives the new label either the number of the label it is declared the same as, or a number above all in use; the number of labels is one above the largest number; labels are listed by number. Labels given as a list and added one by one are numbered consecutively in the order they were named first.", "quantifier": "for all label mappings and sequences of label operations", "why_tests_cant": "Histories of operations.", "anchors": ["dataprofiler/labelers/base_model.py: add_label, set_label_mapping, _convert_labels_to_label_mapping, num_labels, labels, reverse_label_mapping"]}
{"id": "C44", "title": "Scores of a labeler evaluation", "statement": "The confusion matrix counts, for each pair of labels, the positions that have them as true and predicted label, whatever the batch size. Per-label counts, precision, recall and F scores are those of the counted pairs and lie in [0,1]; micro averages over all labels and recall weighted by support are the accuracy; the returned score is the mean of F1 over the labels which are not omitted and occur.", "quantifier": "for all labels, predictions, batch sizes and omitted labels", "why_tests_cant": "All matrices and all batch sizes.", "anchors": ["dataprofiler/labelers/classification_report_utils.py: convert_confusion_matrix_to_MCM, precision_recall_fscore_support, classification_report", "dataprofiler/labelers/labeler_utils.py: f1_report_dict_to_str, evaluate_accuracy"]}
{"id": "C45", "title": "Changing labeler parameters is atomic per component", "statement": "After a call that sets parameters, whether it raised an error or not, every component has all its requested parameters or is as before; if the call succeeds all components named have them and the others are as before, and the warnings name exactly the parameters on which two components disagree. Malformed requests change nothing. A user expects any failing call to change nothing: refuted, the preprocessor stays changed when the model refuses.", "quantifier": "for all parameter dictionaries, states and validations", "why_tests_cant": "All error positions.", "anchors": ["dataprofiler/labelers/base_data_labeler.py: set_params, check_pipeline", "dataprofiler/labelers/base_model.py: set_params", "dataprofiler/labelers/data_processing.py: BaseDataProcessor.set_params"]}
{"id": "C46", "title": "Handling paths and buffers", "statement": "After any number of successful uses a buffer given to the handler is open, at its start and without text wrapper, and no file was opened; a file opened from a path is closed after use; anything else is rejected with an AttributeError. Refuted expectations: a handler can be used again (not for a path), the position of the buffer is as before (it is the start), and nothing is left open if entering fails.", "quantifier": "for all kinds of arguments, modes, offsets and sequences of uses", "why_tests_cant": "All sequences of uses with arbitrary movements.", "anchors": ["dataprofiler/data_readers/filepath_or_buffer.py: FileOrBufferHandler.__enter__, __exit__"]}
{"id": "C47", "title": "Match counts never exceed sample counts", "statement": "For typed columns 0 <= matches <= sample size always holds, hence the data type ratio is in [0,1]; it is missing exactly when nothing was sampled; matches and sample sizes add under update and merge.", "quantifier": "for every history and merge tree", "why_tests_cant": "Invariant over histories.", "anchors": ["dataprofiler/profilers/int_column_profile.py: IntColumn", "dataprofiler/profilers/float_column_profile.py: FloatColumn", "dataprofiler/profilers/base_column_profilers.py: _add_helper, _update_column_base_properties"]}
{"id": "C48", "title": "Sample size selection", "statement": "The number of rows sampled from a data set is all rows if there are at most the minimum, otherwise the larger one of the minimum and the share of the rows, rounded down, which is at most all rows when the sampling ratio is in (0,1]. A larger data set is never sampled less. A positive number given by the caller is used instead. Merged columns sample at least as much as either of them from data sets larger than both minima.", "quantifier": "for all lengths, ratios, minimum sizes and numbers given", "why_tests_cant": "All numeric combinations including truncation.", "anchors": ["dataprofiler/profilers/profile_builder.py: _get_sample_size", "dataprofiler/profilers/profile_builder.py: update_profile"]}
{"id": "C49", "title": "Population stability index", "statement": "The population stability index of two numeric columns is missing exactly if one has no histogram, is otherwise not negative, and comparing fails exactly if both have the same edges with fewer than ten bins. If the edges differ and the first histogram has not exactly ten bins, it is the sum of (q-p)*ln(q/p) over the shares p, q of ten common bins in which both are positive; so also for the given bins if they are ten and the same. It is 0 exactly if the shares agree wherever both are positive and does not depend on the direction. The same holds for columns of categories. Refuted expectations: the index of a column with itself is 0; it can be computed for all numbers of bins; bins compared cover the same range; it is positive for columns without a common value; categories of a column can be compared with those of a column of nulls.", "quantifier": "for all histograms, all counts of values and categories", "why_tests_cant": "Logarithm inequality over all vectors; bin counts and edges in any combination.", "anchors": ["dataprofiler/profilers/numerical_column_stats.py: _preprocess_for_calculate_psi, _calculate_psi", "dataprofiler/profilers/categorical_column_profile.py: diff, _preprocess_for_categorical_psi_calculation"]}
{"id": "C50", "title": "Word-level label smoothing", "statement": "Word-level relabelling returns as many labels as characters and only changes labels inside words; a user expects all characters of a word with a dominant label to get it, but the last character of the text never does and a text of one word is never relabelled (refuted).", "quantifier": "for all texts and label vectors", "why_tests_cant": "Loop over arbitrary separators.", "anchors": ["dataprofiler/labelers/data_processing.py: CharPostprocessor._word_level_argmax"]}
{"id": "C51", "title": "Reading JSON lines", "statement": "Each valid JSON line before the first empty entry is returned exactly once and in order, invalid lines are skipped, and an error is raised only if no line is valid; lines after an empty line are lost (refuted completeness).", "quantifier": "for all sequences of lines", "why_tests_cant": "All positions of malformed and empty lines.", "anchors": ["dataprofiler/data_readers/data_utils.py: read_json, data_generator"]}
{"id": "C52", "title": "Postprocessing of regex predictions", "statement": "Priority aggregation assigns each character the matching label which comes first in the priority order; random aggregation a label with most votes whatever order is drawn; split aggregation turns each row with at least one match into shares which sum to 1. The settings stay valid under all calls that change them. A user expects that the label chosen has a vote, and that a processor using priority has an order: both refuted.", "quantifier": "for all prediction matrices, priority orders and sequences of parameter changes", "why_tests_cant": "All matrices and histories of parameter changes.", "anchors": ["dataprofiler/labelers/data_processing.py: RegexPostProcessor.priority_prediction, split_prediction, process, _validate_parameters, set_params"]}
{"id": "C54", "title": "Top categories in the report", "statement": "The categorical_count entry lists categories in descending order of their true number of occurrences, each at most once, as many as top_k allows, and no category left out occurs more often than one listed.", "quantifier": "for every history of updates and merges and every top_k", "why_tests_cant": "All data and all batchings.", "anchors": ["dataprofiler/profilers/categorical_column_profile.py: CategoricalColumn.profile"]}
{"id": "C55", "title": "Options of a categorical profile after merging", "statement": "A user expects the merge of two profiles to keep the options they were configured with. top_k is always lost, and of two sets of stop thresholds the merge keeps those of the profile with fewer categories (the second one's on a tie), even if they are unset while the other's are set.", "quantifier": "for every pair of profiles reachable by updates and merges", "why_tests_cant": "All pairs of states.", "anchors": ["dataprofiler/profilers/categorical_column_profile.py: CategoricalColumn.__add__"]}
{"id": "C57", "title": "Counts of zeros and negatives", "statement": "The reported number of zeros (negatives) of a numeric column is the number of zeros (negatives) among all its values, after any updates and merges; together they never exceed the number of values.", "quantifier": "for every history of updates and merges", "why_tests_cant": "All batchings and merge trees.", "anchors": ["dataprofiler/profilers/numerical_column_stats.py: _get_num_zeros, _get_num_negatives, _add_helper"]}
{"id": "C58", "title": "The histogram accounts for every value", "statement": "After any history of updates with finite values, and merges of profiles that have both seen values (or neither), the counts of the stored histogram add up to the number of values seen, whatever binning is chosen for each step. After an update all its values, and those the former histogram stands for, lie within the edges; values that are all equal make one bin of no width.", "quantifier": "for every history of batches and merges and every choice of bins", "why_tests_cant": "Each step rebuilds the histogram from an expanded copy of the former one.", "anchors": ["dataprofiler/profilers/numerical_column_stats.py: _update_histogram, _get_histogram, _histogram_to_array, _add_helper"]}
{"id": "C59", "title": "The median follows a shift of the data", "statement": "A user expects that adding a constant to all values adds it to the median. This is false when the two middle values lie around a gap whose centre is 0: the centre is computed, found falsy and dropped, and the left end of the gap is returned. In all other cases every percentile shifts with the data.", "quantifier": "for every histogram, shift and percentage", "why_tests_cant": "Needs the interpolation and the exception for all histograms.", "anchors": ["dataprofiler/profilers/numerical_column_stats.py: _get_percentile"]}
{"id": "C60", "title": "Median absolute deviation from the folded histogram", "statement": "Folding the histogram at its median splits the mass exactly at the median, without loss and without negative parts, if the median lies in the second or a later bin. If it lies in the first bin the reported deviation is 0 whatever the data, so mirrored data report a different deviation.", "quantifier": "for every histogram and every value inside its range", "why_tests_cant": "Case distinctions on the bin that contains the median.", "anchors": ["dataprofiler/profilers/numerical_column_stats.py: _fold_histogram, median_abs_deviation"]}
{"id": "C61", "title": "Mode estimate", "statement": "The mode estimate lists the midpoints of the bins with the largest count, leftmost first, at most top_k_modes of them, and never fails on a non-empty histogram.", "quantifier": "for every histogram and every top_k_modes of at least 1", "why_tests_cant": "One-pass loop with resets.", "anchors": ["dataprofiler/profilers/numerical_column_stats.py: _estimate_mode_from_histogram"]}
{"id": "C62", "title": "Categorical or not", "statement": "A column is called categorical exactly when counting was not stopped and it has at most ten distinct values, or at most a fifth of its rows are distinct.", "quantifier": "for every history of updates and merges", "why_tests_cant": "Boundary cases of two thresholds and the stop flag over all states.", "anchors": ["dataprofiler/profilers/categorical_column_profile.py: is_match, unique_ratio"]}
{"id": "C63", "title": "Rows with nulls", "statement": "The number of rows with a null cell and of rows of null cells only, and their ratios, are those of the rows examined: without a minimum of true samples over all examined rows, with one over the rows that every column examined, batch by batch, whatever the row labels.", "quantifier": "for every history of updates and merges, all tables and all row samples", "why_tests_cant": "Rows are matched across columns by labels that are shifted when batches overlap; the outcome depends on the sequence of label ranges and on which rows each column happened to sample.", "anchors": ["dataprofiler/profilers/profile_builder.py: _update_row_statistics, _min_sampled_from_batch, _min_col_samples_used, _update_base_stats"]}
{"id": "C64", "title": "One label for a cell from the labels of its characters", "statement": "The label of a cell is one of the most frequent labels of its characters apart from padding, and the background label only if that is more frequent than every other one; the confidence of a label is its share of these characters and the confidences add up to 1; a cell without such characters has no label.", "quantifier": "for all predictions, label numbers and random choices among equally frequent labels", "why_tests_cant": "All label sequences and every outcome of the random choice.", "anchors": ["dataprofiler/labelers/data_processing.py: StructCharPostprocessor.convert_to_structured_analysis"]}
{"id": "C65", "title": "One label for a cell from regex votes", "statement": "A cell with characters gets the first label with the largest mean share of votes, its confidences are these means and add up to 1; if all characters vote for one label alone it gets that label; a cell with characters in which nothing matches gets the default label. A user expects the same of an empty cell: refuted, it gets the label with number 0.", "quantifier": "for all vote matrices, label mappings and patterns", "why_tests_cant": "Means over any number of characters.", "anchors": ["dataprofiler/labelers/data_processing.py: StructRegexPostProcessor.process"]}
{"id": "C53", "title": "Heavy hitters with a count-min sketch", "statement": "With count-min-sketch counting, after any updates and merges every value that makes up at least the share 1/limit of the data is reported, no reported count is too small, and none exceeds the number of values that collide with it in any row of the sketch (so counts are exact without collisions). A user expects to be able to update a merged profile and to merge profiles in any grouping, and to get a ValueError for sketches of different sizes; all three fail (refuted).", "quantifier": "for all hash functions, sketch sizes, limits and histories of updates and merges", "why_tests_cant": "Approximate counting depends on all batchings and on hash collisions.", "anchors": ["dataprofiler/profilers/categorical_column_profile.py: _get_categories_cms, _merge_categories_cms, _update_categories, __add__"]}
{"id": "C67", "title": "Data cut into lines and records", "statement": "Text data cut into samples per line makes up the text again, every line is full except the last, which is not empty; records of tables joined by newlines are the rows joined by newlines; JSON and Parquet text within the limit is one line. Two expectations are refuted: a table without rows gives no records (it raises a division error), and the lines of JSON text longer than the limit make up the text (the last line is dropped if it is not full).", "quantifier": "for all data and line limits", "why_tests_cant": "All lengths relative to the limit.", "anchors": ["dataprofiler/data_readers/text_data.py: _format_data_to_lines", "dataprofiler/data_readers/json_data.py: _get_data_as_json", "dataprofiler/data_readers/structured_mixins.py: _get_data_as_records"]}
{"id": "C68", "title": "Records from flat columns are nested again", "statement": "A flat dictionary with separators in its keys, in which no key leads through another, becomes a nested dictionary in which following the parts of a key gives its value, and nothing else is in it. A user expects this, or an error, for other keys as well: refuted, a value may be dropped silently; and there is an error for a key that leads through another one.", "quantifier": "for all flat dictionaries and separators", "why_tests_cant": "Every order of the keys and every depth of nesting.", "anchors": ["dataprofiler/data_readers/json_data.py: _convert_flat_to_nested_cols"]}
{"id": "C69", "title": "Keys collected from AVRO records", "statement": "The nested keys collected from records are exactly the key paths that occur in some record, and they can be collected if no key leads to a value in one record and to a dictionary in another. For other records there is an error that depends on the order of the records (refuted totality).", "quantifier": "for all lists of nested records", "why_tests_cant": "All combinations of nested records in all orders.", "anchors": ["dataprofiler/data_readers/avro_data.py: _get_nested_key, _get_nested_keys_from_dicts"]}
{"id": "C70", "title": "Omitted keys of reports", "statement": "A report with keys to omit has exactly the entries that no key to omit selects, at the same places, unchanged and in order. A key to omit selects an entry if its parts, separated by dots, are wildcards or equal to the first keys that lead to the entry; the part after data_stats stands for the name of a column. This is proved for keys to omit that do not end in two wildcards. Refuted expectations: two wildcards omit what is below the first level (an error if there is a column), the entries of a column with a dot in its name can be omitted, and making a compact report leaves the list of the caller alone.", "quantifier": "for all nested reports without empty or dotted keys, and all lists of keys to omit", "why_tests_cant": "All trees of keys and all combinations of wildcards.", "anchors": ["dataprofiler/profilers/helpers/report_helpers.py: _prepare_report"]}
{"id": "C71", "title": "Dates of a column", "statement": "If the dates of each batch are recognised, a column has as many dates as values that some format fits, the formats are those that are the first to fit some value, each listed once, and the first and last dates are the smallest and largest ones. Whatever is sampled and in whatever batches, never more values are counted than some format fits, and every format, first and last date reported comes from a value. If the first format that fits is not one with short month names for any value, all values are dates. Refuted expectations: a batch of dates in May with short month names has dates, the number of dates does not depend on the batches, nor on the random sample.", "quantifier": "for all histories of updates and merges, all values, formats and samples", "why_tests_cant": "All batchings and all random samples.", "anchors": ["dataprofiler/profilers/datetime_column_profile.py: DateTimeColumn._get_datetime_profile", "dataprofiler/profilers/datetime_column_profile.py: DateTimeColumn._is_subset_datetime_column", "dataprofiler/profilers/datetime_column_profile.py: DateTimeColumn.__add__"]}
{"id": "C72", "title": "File type, encoding and number of samples", "statement": "A merged profile reports the file type and encoding of the data sets that were profiled if they are the same for all, and multiple files otherwise, and the number of samples is the sum. A profile updated with several data sets reports the file type of the last one that was not empty and the last encoding known. Refuted expectations: several file types are reported as multiple files after updates, the encoding reported belongs to the file type reported, and merging with a new profile changes nothing.", "quantifier": "for all trees of merges and all sequences of updates", "why_tests_cant": "All merge trees and orders.", "anchors": ["dataprofiler/profilers/profile_builder.py: BaseProfiler.__add__", "dataprofiler/profilers/profile_builder.py: BaseProfiler.update_profile"]}
{"id": "C73", "title": "Chi-squared test for homogeneity", "statement": "The chi-squared test of two columns of categories has no result for fewer than two categories altogether; otherwise its degrees of freedom are one less than the categories, its statistic is infinite with p-value 0 if a column (or a category) has no values, and otherwise the sum over categories of (x*n2-y*n1)^2/(n1*n2*(x+y)); this is never negative and 0 exactly if all categories have the same share of both columns, where the p-value is 1. The order of the two columns does not matter. In the matrix of p-values of a table each pair of columns of categories has the p-value of its test, on both sides of the diagonal, the diagonal has 1, and all other entries are missing. Refuted expectations: the matrix of a merged table has the entries at the places of the columns; two columns with the same single category have a p-value.", "quantifier": "for all counts of categories, all numbers of values and all tables", "why_tests_cant": "All counts; closed form of the statistic.", "anchors": ["dataprofiler/profilers/profiler_utils.py: perform_chi_squared_test_for_homogeneity", "dataprofiler/profilers/profile_builder.py: _update_chi2, __add__"]}
{"id": "C74", "title": "t-test of numeric columns", "statement": "The t-test of two numeric columns has a result exactly if both have at least two values, their means and variances are known and not both variances are 0. Swapping the columns changes the sign of the statistic and nothing else; the statistic has the sign of the difference of the means; the conservative degrees of freedom are one less than the smaller number of values and Welch's lie between them and the sum of both numbers less two; p-values are between 0 and 1 and are 1 for equal means; nothing changes if all values are given in another unit (scaled and shifted).", "quantifier": "for all means, variances and numbers of values", "why_tests_cant": "Inequalities over all reals.", "anchors": ["dataprofiler/profilers/numerical_column_stats.py: _perform_t_test"]}
{"id": "C75", "title": "A profile saved as JSON is loaded as the same profile", "statement": "Profiler.save(path, 'json') followed by Profiler.load gives a structured profile with the same attributes, options, column profiles and histograms, if the column names are all integers or are strings not all of which read as integers, the options hold no null values for single columns and no null value with a regular expression flag, and there are no null replication metrics. Profiles holding a sketch, a labeler that is not the library's, and text profiles cannot be saved. Profiles with null values for single columns or flags never load, null replication metrics are never reported after loading, and names that look like numbers come back as numbers, so that the same table is refused.", "quantifier": "all structured profiles as trees of values, of any number of columns, any options, any names", "why_tests_cant": "Every attribute of every profile class goes through its own conversion; tests load a few profiles with default options.", "anchors": ["dataprofiler/profilers/json_encoder.py: ProfileEncoder", "dataprofiler/profilers/json_decoder.py: load_profiler", "dataprofiler/profilers/profile_builder.py: BaseProfiler.load_from_dict, StructuredProfiler.load_from_dict", "dataprofiler/profilers/base_column_profilers.py: load_from_dict", "dataprofiler/profilers/profiler_options.py: BaseOption.load_from_dict, StructuredOptions._validate_helper"]}
{"id": "C56", "title": "Reports of columns and their flag for removing what is switched off", "statement": "The report of a column lists, in order, its name, data type, label (if labelling is enabled), whether it is categorical, its order, samples and statistics; the data type is the first whose values all match, and the statistics are those of that type, of the categories, of the labels and of the nulls, each with its own value. Asking again gives the same report. With remove_disabled_flag, graphs list exactly the statistics switched on; texts list characters and words, each if switched on, but never their counts; numbers and text columns lose all statistics but precision or vocab even if switched on; whole numbers and dates keep all even if switched off. Making a report adds the labeler's times to those of the column's type.", "quantifier": "all columns with any profiles, values, options and times", "why_tests_cant": "Tests compare a few keys of a few reports; that no other key is present, lost or overwritten, and what a report changes, ranges over all combinations of profiles and options.", "anchors": ["dataprofiler/profilers/profile_builder.py: StructuredColProfiler.report", "dataprofiler/profilers/column_profile_compilers.py: report", "dataprofiler/profilers/profiler_utils.py: recursive_dict_update", "dataprofiler/profilers/float_column_profile.py: report", "dataprofiler/profilers/text_column_profile.py: report", "dataprofiler/profilers/unstructured_text_profile.py: TextProfiler.report", "dataprofiler/profilers/graph_profiler.py: report"]}
{"id": "C76", "title": "Setting options by name", "statement": "Setting an option by a name, with or without a star, gives the value to exactly the options the name stands for, changes no other option, and neither adds nor removes options; of several names the last one that stands for an option decides. The full name of an option stands for that option alone; a star stands for the outermost options of that name. Names that could mean both kinds of data are refused before anything is set. The presets switch on and off what is documented. But a misspelt name of more than one part is silently ignored, the documented name is_numeric_stats_enabled raises, a star does not reach options inside an object that has the option, an error leaves earlier options set, and an unstarred name may change both kinds of data.", "quantifier": "all option objects as made by the classes, all names, values and sequences of names", "why_tests_cant": "The names that can be written are infinitely many, with stars and partial paths; tests set a few and look at a few options.", "anchors": ["dataprofiler/profilers/profiler_options.py: BaseOption._set_helper, BaseOption.set, NumericalOptions.is_numeric_stats_enabled, TextOptions.is_numeric_stats_enabled, ProfilerOptions.set, ProfilerOptions presets", "_docs/docs/source/profiler.rst"]}
{"id": "C77", "title": "Which options pass validation", "statement": "Validation finds no error exactly in options whose switches are Boolean, whose numbers are in their ranges, whose dictionaries of nulls have texts as keys and flags as values, and in which every statistic switched on has the statistics it is computed from switched on. The options as made and all presets are valid, and switching the numeric statistics of one kind of column on or off together keeps options valid. But the options of row statistics (method of hashing, registers, switches), the switches of characters and words of free texts and the parameters of count-min sketches are not validated though errors are looked for.", "quantifier": "all assignments of values to options", "why_tests_cant": "Tests try a few wrong values one at a time; that every unacceptable combination is reported, and no acceptable one, ranges over all assignments.", "anchors": ["dataprofiler/profilers/profiler_options.py: _validate_helper (all classes), BaseOption.validate"]}
{"id": "C78", "title": "The profile of a graph", "statement": "Profiling a graph reports its numbers of nodes and edges, an average degree that times the number of nodes is twice the number of edges, the number of edges inside the connected component with the most nodes (all edges if the graph is connected), and lists every attribute of the edges either as categorical (some value is whole, with a histogram of all values) or as continuous (no value is whole, with a best fitting distribution). It succeeds exactly on empty graphs and on graphs all of whose edges have the same attributes with numbers as values, each continuous one fitted with a negative log-likelihood of at most 1000. But the component reported need not have the most edges, an edge lacking an attribute raises after the counts have been changed, continuous attributes of large graphs cannot be fitted, a second graph replaces the counts while the sample size adds up, and the mean and variance reported are not those of the fitted distribution.", "quantifier": "all finite undirected graphs with attributes, all orders in which sets are listed, all fitting procedures", "why_tests_cant": "Tests profile two or three fixed graphs of a few edges; components, degrees and the classification of attributes depend on the whole structure of arbitrary graphs.", "anchors": ["dataprofiler/profilers/graph_profiler.py: GraphProfiler.update, _get_avg_node_degree, _get_global_max_component_size, _get_continuous_distribution, _get_categorical_distribution, _get_categorical_and_continuous_attributes, _find_all_attributes"]}
{"id": "C79", "title": "Graphs read from tables of edges", "statement": "A table is taken for a graph exactly if some column names mention a source, a target and a node next to an underscore, dot or hyphen, and the first such columns give the ends of edges. From a table of numbers with distinct column names, the graph read has as nodes exactly what the two columns name, exactly one edge for every pair joined by some row, with all columns of the last such row as attributes, so that the profiler of graphs accepts it. But the columns of the ends are attributes too, and texts in them raise; negative numbers become texts; without a source column the last column is taken; plain column names source and target are not recognised; one empty cell makes reading fail; a header beyond line 256 is not found.", "quantifier": "all tables of texts, all column names and all functions from texts to numbers", "why_tests_cant": "Tests read a few files with numbers for nodes; repeated and reversed pairs, names of columns and rows of all shapes cannot be enumerated.", "anchors": ["dataprofiler/data_readers/graph_data.py: GraphData._find_target_string_in_column, csv_column_names, is_match, _format_data_networkx, check_integer"]}
{"id": "C80", "title": "Validation of data against known anomalies", "statement": "After a validation that succeeds, each rule configured for a column lists in order exactly the rows whose number lies in the range or equals a number of the list (labels of the index for pandas data, positions for dask data); reports of columns that are not configured stay as they were. It succeeds exactly if the configuration is not empty, every configured column exists and has rules, only ranges and lists, the type of data is known, and every value can be compared. A report can be had exactly after some validation succeeded, and pandas and dask data numbered from zero give the same. But data with another index give different rows, lists of texts match nothing and raise on texts, reports keep columns of earlier validations, and a failed validation leaves a mixture that is then returned.", "quantifier": "all data frames, configurations and histories of validations", "why_tests_cant": "Tests validate small frames with default index once; which rows are listed, and what is left after failures and repetitions, ranges over all data and histories.", "anchors": ["dataprofiler/validators/base_validators.py: is_in_range, is_in_list, Validator.validate, Validator.get"]}
{"id": "C81", "title": "Labels for columns by their names", "statement": "The labels predicted for a list of column names are, in order, one for each name that no false positive matches at the negative threshold or above and some true positive matches above the positive threshold: the label of the first of the true positives that match best, with its score; capital letters do not matter. Parameters pass validation exactly under a stated condition, and a model has the given parameters and defaults for the others. But names without a label leave no trace, so labels cannot be assigned to names; without labels prediction raises; labels need not be labels of the model, and the only label of a model is rejected; entries without attribute and label are accepted, fractional thresholds are not; no parameter can be set without giving the true positives again.", "quantifier": "all names, lists of positives, thresholds, parameters and scoring functions", "why_tests_cant": "Tests use one list of names with fixed entries; which names get which labels under any scorer and any parameters is a statement over all of them.", "anchors": ["dataprofiler/labelers/column_name_model.py: ColumnNameModel.__init__, _validate_parameters, _compare_negative, _model, predict", "dataprofiler/labelers/base_model.py: BaseModel.set_params"]}
{"id": "C66", "title": "Labels of samples become labels of characters", "statement": "When labeled samples are joined to one text, the text holds each sample where its span says, every entity other than of separators is the span of a sample with a label other than the default, and every character of a sample gets the label of the sample and every character of a separator the label for padding, provided the last sample is not empty; a single sample always gets its own label throughout. But before an empty last sample the separator gets the default label, and separators need a label called PAD whatever the parameter for padding says.", "quantifier": "all lists of samples and labels, separators, defaults and label mappings", "why_tests_cant": "Tests join a handful of samples; that spans and labels fit for every list of samples, with empty ones among them, needs induction over the list.", "anchors": ["dataprofiler/labelers/data_processing.py: StructCharPreprocessor.convert_to_unstructured_format, CharPreprocessor._process_batch_helper"]}
{"id": "C82", "title": "The row with the names of the columns", "statement": "In a delimited text with cells other than words, the header that is guessed is the last row of which more than nine tenths of the cells are words or empty, fewer than half are empty and fewer than a tenth differ in type from the row above, such that no row above has more data and none differs; and there is a header only if some row differs. So a row of names above a row in which at least a tenth and at least one of the cells is of another type is the header whatever follows, and rows that are all alike have none. In a table of words the first row is the header exactly if two cells of a column differ by two or more in the number of words. But in a table of eleven columns with one of numbers the first row of data is taken for the header; names above words are missed, and words without names get a header.", "quantifier": "all texts, delimiters, quotes and classifications of cells", "why_tests_cant": "Tests guess the header of some files; which row is chosen in any table, of any width and with any rows following, is a statement about all texts.", "anchors": ["dataprofiler/data_readers/csv_data.py: CSVData._guess_header_row", "dataprofiler/data_readers/data_utils.py: detect_cell_type, get_delimiter_regex"]}
{"id": "C83", "title": "Which texts are recognised as delimited", "statement": "A text is recognised with a delimiter exactly if, below the header, more than three of the lines looked at have two or more characters, and the most common number of delimiters outside quotes (the first such number, and a positive one unless there is no delimiter) is shared by all but 2^p of them, if the number of lines looked at has p+1 digits. So tables of two or more columns with four rows below the header are recognised, and lines of one character or fewer than four lines never. A delimiter and header that are given are what the file is read with; a delimiter of one character that is not blank is dropped on reading exactly if every line ends with it and has no other, one of several characters, not all blank, only if all lines are empty. But empty lines loosen the test so that two of four lines, or one of five, are enough; only the beginning of a file of ten lines counts; a quote that is given is not used if the delimiter is guessed; a header and two rows are no match; a line of one tab in a file delimited by tabs, or of two or three blanks in one delimited by two blanks, makes reading fail.", "quantifier": "all texts, delimiters, quotes and headers", "why_tests_cant": "Tests recognise some dozens of files; the exact condition concerns all texts, all numbers of lines and all positions of quotes.", "anchors": ["dataprofiler/data_readers/csv_data.py: CSVData.is_match, _load_data_from_file", "dataprofiler/data_readers/data_utils.py: get_delimiter_regex, load_as_str_from_file"]}
{"id": "C84", "title": "The delimiter that is guessed", "statement": "Splitting a line at delimiters outside quotes loses nothing, and undoes joining for fields in quotes or without delimiters and quotes. The delimiter that is guessed is comma, tab or a character of the text than which fewer than twenty are more frequent, never a quote or line end; in the rows looked at (all if there are at most 25) no row has more delimiters than a row below, some row has one, no two neighbouring cells are texts if the delimiter is a letter or the only blank of the row, and no cell is a whole number if it is a digit. Of all candidates for which this holds it is the first with the most columns in the last row, counted five times for comma and tab; there is no guess exactly if it holds for none. A table of n columns in at most 25 rows is taken to be delimited by commas unless another character gives more than 5 n columns in the last row, or tab more than n. But the same text may get different delimiters by chance, rows below the 25th do not matter, and a table delimited by commas with many words is taken to be delimited by blanks.", "quantifier": "all texts, classifications of cells and random draws", "why_tests_cant": "Tests guess for some files, with what is drawn at random fixed or immaterial; which characters can be guessed, and that commas win, ranges over all tables and draws.", "anchors": ["dataprofiler/data_readers/csv_data.py: CSVData._guess_delimiter_and_quotechar", "dataprofiler/data_readers/data_utils.py: get_delimiter_regex, detect_cell_type"]}
{"id": "C85", "title": "Which reader is made for data", "statement": "A file or buffer without a type is read by the first of the readers for JSON, graphs, CSV, Parquet, AVRO and text that recognises it, with the options given and what this reader added to them; with a type only the reader of that type is asked, and it is an error if it does not recognise the file; data in memory goes to the reader of its type without any file being looked at; neither or both of file and data, data without a type and unknown types (also in capitals) are errors. What is behind an address is read as a buffer with the same content. Every file is read by some reader if no test raises. But an error in one test stops the search although a later reader takes the file, and with addresses of S3 the storage options are taken out of the user's dictionary, so that the same call fails the second time.", "quantifier": "all files, buffers, data, types, options and behaviours of the tests of the readers", "why_tests_cant": "Tests load some files of each kind; order, errors and options for any combination of answers of six tests, and repeated calls with one dictionary, are not enumerable.", "anchors": ["dataprofiler/data_readers/data.py: Data.__new__", "dataprofiler/data_readers/data_utils.py: is_valid_url, S3Helper.is_s3_uri"]}
{"id": "C86", "title": "Options of readers", "statement": "The options of a reader of delimited data pass exactly if header is auto, None or a whole number from 0, the delimiter a text or None, the format dataframe or records, selected columns a list of texts, and samples per line and rows whole numbers from 0; the reader then has what is given and the documented defaults, and a table in memory has comma and double quote unless others are given. A format can be set exactly if the reader has it, in any case, and the data is then given in it; an encoding exactly if it is one of four. A file that is not recognised cannot be loaded anew. But on loading anew header, delimiter and quote stay those of the file before whatever options are given, and the dictionary given is changed; 0 samples per line pass and no records can be had; truth values pass as numbers; for readers other than CSV formats that do not exist fail only when data is asked for; a graph cannot be asked whether it is structured.", "quantifier": "all options, readers, inputs and values", "why_tests_cant": "Tests try some invalid values and reload with the same kind of file; the exact condition and what survives reloading range over all values and states.", "anchors": ["dataprofiler/data_readers/csv_data.py: CSVData.__init__, _check_and_return_options, reload, _get_data_as_records", "dataprofiler/data_readers/base_data.py: BaseData.data, data_format, file_encoding, reload"]}
{"id": "C87", "title": "Size limit of downloads", "statement": "A download gives exactly the bytes sent, in order; it fails exactly if the declared length is one gigabyte or more or more than 131072 pieces are sent. So if pieces are full, files of up to a gigabyte are taken and larger ones never. But a file of exactly a gigabyte is refused if its length is declared and taken if not, and a file of 128 kilobytes that is sent in small pieces is refused as larger than a gigabyte.", "quantifier": "all declared lengths and all sequences of pieces", "why_tests_cant": "Tests mock a download with a large declared length; no test sends every sequence of pieces, let alone a gigabyte.", "anchors": ["dataprofiler/data_readers/data_utils.py: url_to_bytes"]}
{"id": "C88", "title": "Differences of columns and of tables", "statement": "The difference of two columns holds name, type, order, whether they are categorical, labels (if both have label profiles) and statistics. Sample size, numbers and places of nulls are always compared; numbers are compared exactly if both columns have the same type, categories exactly if both have a profile of categories, averages and representation of labels exactly if both have labels; each entry is the difference of the values of the same name and nothing else is in it. Columns can be compared exactly if they have a type, profiles of categories or labels in common, and a column or table compared with itself shows no difference. Tables are compared as wholes, and column by column exactly if both have the same names in the same order; the schema shows which names are only in one of them and where. But with a column of numbers in one table and of text in the other, and neither categories nor labels profiled, comparing tables is a KeyError, and psi of the numbers is replaced by that of the categories.", "quantifier": "all columns and tables, with any combination of profiles, types and values", "why_tests_cant": "Tests compare some profiles; which of the nested dictionaries overwrite each other, for all combinations of profiles that are on or off, is beyond them.", "anchors": ["dataprofiler/profilers/profile_builder.py: StructuredColProfiler.diff, StructuredProfiler.diff, BaseProfiler.diff", "dataprofiler/profilers/column_profile_compilers.py: BaseCompiler.diff, ColumnPrimitiveTypeProfileCompiler.diff, ColumnStatsProfileCompiler.diff, ColumnDataLabelerCompiler.diff", "dataprofiler/profilers/numerical_column_stats.py: diff", "dataprofiler/profilers/categorical_column_profile.py: diff", "dataprofiler/profilers/data_labeler_column_profile.py: diff"]}
{"id": "C89", "title": "Profiles of free text as a whole", "statement": "For data with distinct row labels every update examines, in a random order, all lines or the smallest multiple of the sample size that holds the required number of lines with text (exactly the sample size if none is required, and everything for up to 5000 lines by default). After any sequence of updates and merges the number of samples used is that of the lines examined, the empty line count that of the blank lines among them, exactly the other ones are given to the statistics (in the order of the data), no line is used twice, and the memory size is that of all lines of all data. If every batch is examined completely, the counts and the lines do not depend on how data were split into updates and merged profiles. Merges work exactly if both profiles have data, the same name and the same profiles enabled, in either order; the sample is up to five lines with text of the last batch, or of both samples without repetition. An update fails exactly for tables with no or several columns and then changes nothing. But with equal row labels blank lines and lines that were not sampled are profiled and lines with text are counted as empty; a subsample is profiled without the warning; a new profile can neither be merged nor reported; the same text from a list and from a table cannot be merged, though the table can be given as an update.", "quantifier": "all lines, row labels, sizes, random orders and sequences of updates and merges", "why_tests_cant": "Tests profile some texts, mostly smaller than the sample size and with distinct labels; sampling depends on random orders, and the sums hold over all sequences of updates and merges.", "anchors": ["dataprofiler/profilers/profile_builder.py: UnstructuredProfiler.__add__, report, _clean_data_and_get_base_stats, _update_base_stats, _update_profile_from_chunk; BaseProfiler.update_profile, __add__", "dataprofiler/profilers/column_profile_compilers.py: BaseCompiler.__add__", "dataprofiler/profilers/profiler_utils.py: shuffle_in_chunks, get_memory_size"]}
{"id": "C90", "title": "The histogram in the report of a numeric column", "statement": "After any history of updates, reports and merges the report of a numeric column with data shows a histogram whose counts add up to the number of values, unless the profile has a number of bins set by the user and was merged and not updated since: then the report is a KeyError. Which method is shown: the one with the smallest loss (the first of them if no loss is zero), exactly if no loss is zero or the last one is. After an update the histogram has as many bins as the method suggests - one if all values are equal, else the number of the user, else the estimate but at most 100000 - and is the stored histogram or a rebinning of it; a merged profile has the bins its width asks for, without limit. A report repeated is the same, never changes the data kept nor what is computed from them, and does not influence the next one unless a method suggests exactly as many bins as are stored. But then later reports show another histogram than without it; a zero loss is taken for none, so a worse method can be shown; and a profile merged with an empty one can lose its histogram for good.", "quantifier": "all histories of updates, reports and merges, values, options for bins, estimates and losses", "why_tests_cant": "Tests look at the histograms of some data; the choice depends on losses accumulated over the history, and aliasing of the stored histogram shows only in particular orders of reports and updates.", "anchors": ["dataprofiler/profilers/numerical_column_stats.py: NumericStatsMixin.__init__, _add_helper_merge_profile_histograms, _get_histogram, _merge_histogram, _update_histogram, _histogram_for_profile, _get_best_histogram_for_profile, _histogram_bin_error", "dataprofiler/profilers/histogram_utils.py: _calculate_bins_from_profile"]}
{"id": "C91", "title": "Numbers of bins of merged numeric columns", "statement": "For merged profiles the square root rule gives the smallest number of bins whose square is at least the number of values, Rice's rule the smallest whose cube is at least eight times it, Sturges' rule one more than the smallest exponent of two that reaches it, and auto the larger one of Freedman and Diaconis and Sturges. Freedman and Diaconis give the smallest number of bins no wider than twice the interquartile range over the cube root of the number of values, Scott's rule the same with its width from the deviation, and Doane's rule the number of its formula rounded up. Every rule gives at least one bin, for all data, and other rules than the seven are a ValueError. Shifting values or changing their unit changes no number of bins. But the limit of 100000 bins does not hold: with eight values the numbers of fd and auto exceed every bound.", "quantifier": "all numbers of values, minima, maxima, quartiles, deviations and skewnesses", "why_tests_cant": "Tests compare some widths with numpy; the results in whole numbers, positivity and independence of units hold for all reals.", "anchors": ["dataprofiler/profilers/histogram_utils.py: _calculate_bins_from_profile, _calc_*_bin_width_from_profile, _ptp"]}
{"id": "C92", "title": "Which cells count as null", "statement": "A cell is null exactly if one of the null values, read as a pattern in which case is ignored, matches all of its text, a line break at the end left aside. For null values that are words without special characters this is equality up to the case of letters; by default exactly empty cells, nan, none, null and rows of blanks, dashes or underscores are null. Null values given for a column are added to the general ones, and so are those for the column whose position it takes in a later table; neither order nor flags of null values matter, and more null values give more null cells if there was at least one. But the flags given with a null value are ignored, so that case never matters; without any null value empty cells are null, and adding the first one makes them data; null values are patterns, so that n.a matches nba; and one malformed null value makes every profile fail.", "quantifier": "all texts of cells, all null values, general and by column", "why_tests_cant": "Tests use the default null values and one or two others; which texts are matched by patterns joined to one, with any words and letters, is a statement about all texts.", "anchors": ["dataprofiler/profilers/profile_builder.py: StructuredColProfiler.__init__, clean_data_and_get_base_stats; StructuredProfiler._update_profile_from_chunk"]}
{"id": "C93", "title": "Numeric columns with statistics switched off", "statement": "If minimum, maximum, sum, variance, numbers of zeros or of negative values are switched off in some of the profiles of a history of updates and merges, the statistics that are on in all of them are the same as if everything were on, and the others are as in a new profile; exactly the ones on in all profiles are computed further on. Median, mode and median absolute deviation are on exactly if they are on in all profiles, bias is corrected exactly if it is in all of them, and the number of modes is the largest one; merging in the other order gives the same settings. Options with variance and without sum, which validation refuses, are a KeyError at the first value. But with the sum off the mean is shown as 0, and a number of quantiles set in both profiles is lost by merging them: it is 1000 afterwards.", "quantifier": "all histories of updates and merges, values and combinations of options", "why_tests_cant": "Tests merge two profiles with a few options off; that every remaining statistic is right for all combinations of options and all histories is beyond them.", "anchors": ["dataprofiler/profilers/numerical_column_stats.py: NumericStatsMixin.__init__, _add_helper, _update_helper, _get_min, _get_max, _get_sum, _get_variance, _get_num_zeros, _get_num_negatives", "dataprofiler/profilers/base_column_profilers.py: _filter_properties_w_options, _perform_property_calcs, _merge_calculations"]}
{"id": "C94", "title": "Making and updating profilers", "statement": "Without a type given, a profiler is made for graphs exactly if the data are a graph, for tables exactly if they are a list, a series, a data frame or a file that gives data frames, and for text if they are a text or another file; other data are an error. A type given is taken whatever the data. The profiler uses the options object given for its kind, and a new object if none is given; options of another kind are refused, except for graphs, where all options are ignored. If labels are on and the options have no labeler, one is loaded and kept in the options object, or labels are switched off in it if loading fails; nothing else in any options object is changed. Text files given as tables are a TypeError, a number of required values that is no whole number a ValueError. Updates take files, lists, series, data frames and, for profilers of text, texts; they leave the profile as it was for empty data and refuse everything else with it unchanged. Refuted expectations: labels are computed if they are on in the options as the user made them and the labeler can be loaded; a profiler that cannot be made leaves the options as they were; zero as the number of required values overrides the setting of the profiler.", "quantifier": "all data, types, options objects and sizes, and all sequences of making profilers with shared options objects", "why_tests_cant": "Tests make a profiler from a few files and options objects; that nothing else changes in any options object after any sequence of profilers, and when labelers are loaded, concerns all sequences.", "anchors": ["dataprofiler/profilers/profile_builder.py: Profiler.__new__, BaseProfiler.__init__, BaseProfiler.update_profile, StructuredProfiler.__init__, UnstructuredProfiler.__init__", "dataprofiler/profilers/graph_profiler.py: GraphProfiler.update", "dataprofiler/data_readers/*.py: is_structured"]}
{"id": "C95", "title": "Merging tables profiled with different options", "statement": "Two tables can be merged exactly if both have columns that match, with the same options for row statistics, the same way of counting unique rows (with HyperLogLog the same seed and registers) and the same column profiles; otherwise a ValueError is raised. The result has the options and columns of the left table, and its rows and column statistics are those of both. After any history of updates, merges and saving and loading, correlations, chi-squared tests and null replication metrics are of batches of the history only and of none twice; chi-squared tests are of all batches if they are on in all profiles, and so are correlations and metrics if moreover no profile was saved and loaded (and matrices exist and have the same columns), batches of nulls only left aside. The report fails exactly if metrics are on for the left table and were lost by a merge with a table without them or by saving and loading, until the next rows. Refuted expectations: the order of merging does not matter for whether a report can be made; a profile saved and loaded can be merged with what it could be merged with before; correlations and metrics of a report are of the rows it counts (after a merge with a table without them, the next update begins them anew).", "quantifier": "all histories of updates, merges, saving and loading, and all combinations of options", "why_tests_cant": "Tests merge two tables with the same options, or with one option different; which rows a statistic is of after any history with any options is a statement about all histories.", "anchors": ["dataprofiler/profilers/profile_builder.py: StructuredProfiler._add_error_checks, BaseProfiler.__add__, StructuredProfiler.__add__, StructuredColProfiler.__add__, StructuredProfiler.report, StructuredProfiler._update_correlation, StructuredProfiler._merge_correlation, StructuredProfiler._update_null_replication_metrics, StructuredProfiler._merge_null_replication_metrics, StructuredProfiler._update_profile_from_chunk, StructuredProfiler.save", "dataprofiler/profilers/column_profile_compilers.py: BaseCompiler.__add__"]}
{"id": "C96", "title": "Training a labeler: which samples train and which validate", "statement": "A call with valid data and settings trains for exactly the number of epochs asked for, and its result has one entry for each. Every sample keeps its own label. The samples are split once: in every epoch the same samples train, each exactly once and in a new order, and the same other ones validate, so that no sample that validates is ever used to train. The number to train is the share asked for rounded down, at least one and at most all; without a share for validation all samples train and none validates. If at least two samples train, every sample is used. Invalid calls - data of a refused type, no data, different numbers of samples and labels, a share outside of 0 to 1, pipelines that differ if that is an error - fail with the labeler unchanged. No epochs train nothing but still set the labels. Refuted expectations: every sample given is used (if the share leaves one sample to train, there is no validation and all others are dropped); a call that fails leaves the labels as they were.", "quantifier": "all samples, labels, shares, numbers of epochs, random orders, models and preprocessors", "why_tests_cant": "Tests train on a few samples with a mocked model; that validation data never leak into training, for all random orders and epochs, is a statement about all executions.", "anchors": ["dataprofiler/labelers/base_data_labeler.py: TrainableDataLabeler.fit"]}
{"id": "C97", "title": "Labelers on disk", "statement": "Saving a labeler succeeds exactly if the directory exists and every parameter of its three parts can be written as JSON (generators of random numbers only in the postprocessors that save their state); no other directory is touched and none is made. What was saved is loaded, whatever was in the directory before: the same classes, parameters, weights and states of generators, and the labels as texts; so the last successful save decides alone. The labeler loaded equals the one saved exactly if all labels are texts and the postprocessor has no generator that is compared (the one of StructCharPostprocessor is not). After a save that fails in an existing directory nothing can be loaded from it. Objects given for loading must be of the very classes saved; the first wrong one decides the error. Refuted expectations: a labeler saved and loaded equals the one saved (regex postprocessors); a failing save leaves the labeler saved before; as many labels are loaded as were saved; making another class of models does not change which class is loaded (names are compared in lower case); equal labelers have the same weights.", "quantifier": "all labelers, parameters, labels, contents of directories, registered classes and objects given for loading", "why_tests_cant": "Tests save and load a few labelers with mocked files; what is left after failures and what is equal afterwards concerns all parameters and all earlier contents.", "anchors": ["dataprofiler/labelers/base_data_labeler.py: BaseDataLabeler.__eq__, _load_parameters, _load_model, _load_preprocessor, _load_postprocessor, _load_data_labeler, _save_data_labeler, save_to_disk", "dataprofiler/labelers/data_processing.py: BaseDataProcessor.__eq__, load_from_disk, _save_processor; StructCharPostprocessor.__eq__, _save_processor; RegexPostProcessor._save_processor; StructRegexPostProcessor._save_processor", "dataprofiler/labelers/base_model.py: BaseModel.__eq__, _register_subclass, get_class, set_label_mapping", "dataprofiler/labelers/regex_model.py: save_to_disk, load_from_disk", "dataprofiler/labelers/column_name_model.py: save_to_disk, load_from_disk", "dataprofiler/labelers/character_level_cnn_model.py: __eq__, save_to_disk, load_from_disk"]}
{"id": "C98", "title": "The character model: labels and predictions", "statement": "Labels given to the character model as a list get the number zero for PAD and 1, 2, ... in their order; those given as a dictionary keep their numbers and PAD is added with zero; a dictionary that gives zero to another label or PAD another number, or labels without the default label, are a ValueError. A call that fails changes nothing. Once there is a trained, saved or reset net, predictions are made exactly if there are as many label numbers as when it was last built and the default label has the number the default label had then; otherwise the call fails, and without a net always. Every sample gets one list of predictions, in the order of the samples, as long as the sample and equal to what the net gave for it, and so for confidences, for every size of batches; texts are cut and joined into batches of that size, so on the whole way from texts to predictions each character gets the prediction made at its place. Refuted expectations: predictions are refused after labels are renamed without training; PAD has the number zero; a default label that is no label is refused; predictions after adding a label need training (saving is enough); a smaller batch before the last one gives as many predictions as samples.", "quantifier": "all labels, sequences of calls, nets, texts, parameters of cutting and sizes of batches", "why_tests_cant": "Tests predict one or two batches with a mocked net; that rows of growing arrays are never mixed up for any number and size of batches, and when stale nets are refused after any sequence of calls, is a statement about all executions.", "anchors": ["dataprofiler/labelers/character_level_cnn_model.py: set_label_mapping, _need_to_reconstruct_model, save_to_disk, _construct_model, reset_weights, _reconstruct_model, fit, predict", "dataprofiler/labelers/data_processing.py: CharPreprocessor._process_batch_helper, CharPostprocessor.match_sentence_lengths"]}
{"id": "C99", "title": "Data handed to labelers", "statement": "Rows of equal length, arrays and tables are predicted cell by cell, row after row: the cell in row i and column j of a table with w columns is sample i*w+j. Cells are what they are in the table, unless the table has numbers only and both whole numbers and floats, which makes all whole numbers floats. Data of other types, and readers of such, are a TypeError. Training a labeler on a table takes every cell once as a sample, column after column, labelled with the name of its column; the labels are the names of the columns as texts, each once and in their order, with the numbers from one on and zero for PAD. With distinct names, the default label among them and valid arguments it trains for the number of epochs given, every cell (if there are not just two) used exactly once in every epoch, to train or to validate, with its own label. Training always fails if the default label is not the name of a column. A directory is written only with the labeler that is returned. Refuted expectations: any table can be trained on with the shipped labeler (one without a column UNKNOWN is refused unless a default label is given); PAD has the number zero (a column called PAD takes another one); the text of a cell does not depend on other columns; rows of different lengths are predicted cell by cell.", "quantifier": "all tables, names and types of columns, lists in lists, default labels, directories, random orders, models and preprocessors", "why_tests_cant": "Tests train on one small table with a mocked labeler and predict lists of texts; that every cell of every table is used once with its label, for all random orders, is a statement about all executions.", "anchors": ["dataprofiler/labelers/base_data_labeler.py: _check_and_return_valid_data_format, predict", "dataprofiler/labelers/data_labelers.py: train_structured_labeler"]}
{"id": "C100", "title": "Which cells are numbers", "statement": "A cell counts as a float exactly if, white space and a sign apart, it is nan, inf or infinity in any capitals or a decimal number: digits with at most one underscore between two of them, a point among or beside them, and an exponent. Words are never integers. Every whole number up to 2^53 counts as an integer however it is written, and every number from 2^52 on does, up to the largest double. What counts as an integer is within one part in 2^53 of a whole number (half of that is enough) or at most 2^-1075 (which always is); so a fraction written with at most 15 digits counts as one only if it is as small as that. White space around a cell makes no difference, every integer is a float, and counts of batches add up. Refuted expectations: cells that count as integers are whole numbers (0.99999999999999999999 does), or zero or at least a half (1e-400); all whole numbers are integers (1e400 is not).", "quantifier": "all texts in ASCII, all batches", "why_tests_cant": "Tests try a handful of cells; where rounding makes fractions count as integers is a statement about all decimal numbers of any length.", "anchors": ["dataprofiler/profilers/numerical_column_stats.py: is_float, is_int", "dataprofiler/profilers/float_column_profile.py: _is_each_row_float", "dataprofiler/profilers/int_column_profile.py: _is_each_row_int"]}
{"id": "C101", "title": "Tables from JSON", "statement": "A list of records in one document gives a table with one row per record, a column for every path to a value (keys joined by dots) and in every cell the value under that path, missing only if the record has none; for any keys at all no cell is made up and none is missing that has a value. The same records as lines give a column per key at the top, with objects as values. Both tables agree if no record has an object in it. Lists give numbered columns with the values at their positions, other values one column. A list is refused if and only if some value does not have the type of the first, except for truth values after a whole number. Selecting columns is a KeyError exactly if one is missing and otherwise keeps the cells. A file is recognised if and only if it is one document or its first thousand lines can be decoded and at least half of them (the end counted as a line) are JSON with a colon or bracket, and is then loaded if all of it can be decoded. Refuted expectations: records give the same table as a document and as lines; every key has a column (not that of an empty object); every value is in the table (keys with dots collide); the order of values does not decide whether they are accepted; half the lines are enough; every recognised file gives a table (the document 5 does not).", "quantifier": "all JSON values of any depth, all lists of records, all files", "why_tests_cant": "Tests compare a few files; that no value is lost or made up is a statement about all nestings of records.", "anchors": ["dataprofiler/data_readers/data_utils.py: json_to_dataframe", "dataprofiler/data_readers/json_data.py: JSONData.is_match, JSONData.data"]}
{"id": "C102", "title": "Tables read in part", "statement": "If every line of a delimited file is a record by itself, reading with a number of rows gives the names of the file and that many of its rows (all if there are fewer), none twice; without a header at most that many, and exactly as many if no line is blank. If the file has no more lines than asked for, the table is that of the whole file, whatever quotes it has. In every case what is read are lines of the file, each at most once, the line of the header first. Asking for zero rows reads them all. A sample of a Parquet file has the rows asked for in the order of the file, numbered from 0; all of it has every row of every group in order, with labels from 0 in every group, distinct exactly if at most one group has rows. Refuted expectations: rows of a sample are rows of the file, and a file that can be read can be sampled (not with line feeds inside of quotes); the names are those of the file; a sample has as many rows as asked for (blank lines are drawn and then left out); rows of Parquet files have distinct labels.", "quantifier": "all texts, delimiters, headers, numbers of rows and draws of random numbers; all Parquet files", "why_tests_cant": "Samples are random: tests see a few draws on a few files; which rows may come out is a statement about all draws.", "anchors": ["dataprofiler/data_readers/csv_data.py: CSVData(options sample_nrows)", "dataprofiler/data_readers/parquet_data.py: ParquetData(options sample_nrows)", "dataprofiler/data_readers/data_utils.py: rsample, read_csv_df, sample_parquet, read_parquet_df"]}
{"id": "C103", "title": "The score that labelers are trained by", "statement": "The score that training shows does not depend on how samples are put into batches or on their order, and every value is between 0 and 1 for true values between 0 and 1 and weights that are not negative. A class has F-beta of its weighted counts: with T for predicted and true, P for predicted but not true and N for true but not predicted it is (1+b^2)T / ((1+b^2)T + b^2 N + P), and 0 if T is 0; it is 1 if and only if something is predicted right and nothing wrong. Predicted are the values above the threshold or, without one, those equal to the largest value of the row unless they are as good as zero. The macro average is the mean over all classes, the weighted one weighs by true labels. If each row has one label and one largest value, the scores are those of the report that evaluates predictions and the micro average is the share of rows predicted right, for every beta. Averages other than the four, beta or thresholds that are no floats, a beta not above 0 and a threshold outside (0,1] are refused, and only these. Refuted expectations: right predictions for all rows give the macro score 1 (a class without rows counts as 0); a row has one prediction (ties count for all, zeros for none).", "quantifier": "all numbers of classes, batches, weights, values of beta and thresholds", "why_tests_cant": "Tests compare one or two small arrays with known scores; that batching never changes the score and that it agrees with the other code for the same score is a statement about all data.", "anchors": ["dataprofiler/labelers/labeler_utils.py: FBetaScore, F1Score", "dataprofiler/labelers/classification_report_utils.py: precision_recall_fscore_support"]}
{"id": "C104", "title": "Plots of histograms and of missing values", "statement": "Without a choice the histograms of all columns of numbers are shown in the order of the table; chosen by name, for every name in turn those of the columns with this name in any capitals; chosen by position, in the order given, with negative positions from the end. Each is shown once for every time it was chosen, in its own field, with bars as high as the counts of its histogram; the grid is the smallest near-square that fits and has less than a row of empty fields. Unknown names are a ValueError, positions out of range an IndexError, both choices at once, lists with other things in them and other arguments a ValueError, and no column of numbers gives no figure. In plots of missing values a column has a background as long as its sample and bars for each kind of missing value; a kind has one colour in the whole plot, the kth kind the kth colour, and different kinds have different colours as long as there are enough. Bars lie between the first and the last missing row; they cover exactly the missing rows if and only if each missing row but the first and the last has another of its kind next to it. Refuted expectations: exactly the missing rows are drawn (rows 0, 5 and 10 are drawn as 0, 1 to 4 and 10); plots come in the order of the table; every column can be chosen by its name (not those with a number for a name); a column without a histogram leaves the others (nothing is shown).", "quantifier": "all tables, choices of columns, histograms, sets of missing rows and colours", "why_tests_cant": "Tests plot a handful of columns and count axes; they never look where the bars are. Which rows are covered is a statement about all sets of rows.", "anchors": ["dataprofiler/reports/graphs.py: plot_histograms, plot_col_histogram, plot_missing_values_matrix, plot_col_missing_values"]}
{"id": "C105", "title": "Seeds and the random choices they govern", "statement": "After set_seed(s) the rows of a column that are looked at, the values that its sample shows and the lines taken from a file depend on s and on what is asked for only: they are the same in every process and whatever was done before, until set_seed is called again and whatever the environment variable says. Without set_seed, and after set_seed(None), the same holds with the number in DATAPROFILER_SEED, if it is a whole number that is not negative (blanks around it, a sign and single underscores are allowed). set_seed accepts None and integers that are not negative; anything else is a ValueError and changes nothing. Without a seed every choice has a generator of its own, and a warning is given exactly if the variable is set. If the global generators of random and numpy are seeded as well, everything that follows is determined. Refuted expectations: the samples of merged columns, of text profiles and of Parquet files follow the seed; so do the batches of a reader and the order of training samples; and updates with as many rows as before look at other positions (with a seed they look at the same ones).", "quantifier": "all processes, histories of calls, seeds, texts of the variable, generators and sizes", "why_tests_cant": "Tests set one seed and compare with stored results of one call. Independence from the history and from the operating system's entropy is a statement about all executions.", "anchors": ["dataprofiler/__init__.py: set_seed", "dataprofiler/rng_utils.py: get_random_number_generator", "dataprofiler/profilers/profiler_utils.py: shuffle_in_chunks", "dataprofiler/profilers/profile_builder.py: clean_data_and_get_base_stats", "dataprofiler/data_readers/data_utils.py: reservoir"]}
{"id": "C106", "title": "The encoding of a file and the text that is read", "statement": "The detector of encodings sees the first 20 KiB of a file, in pieces of 1 KiB. If it finds nothing, ASCII or Windows-1254, UTF-8 is tried, otherwise what it found; if the first million characters can be read with it, it is the encoding. If not, and charset_normalizer is installed, what this finds in the first 10000 bytes is tried, then what it finds in the first 20 KiB; where it finds nothing or fails, the guess before stands. The encoding is given in small letters and is never empty. An encoding that decodes the whole file passes the test, and one that passes decodes the whole file if the text is shorter than what is tested. The decoder of UTF-8 accepts exactly the bytes that encode a text and gives this text, so a file in UTF-8 is read as it was written, except that line ends become line feeds; lines have one line feed, at their end, and together they are the text. A reader keeps the encoding that it was given, that was set or that it found first; without a file it has the system's, with UTF-8 for ASCII. Exactly ascii, utf-8, utf-16 and utf-32 in any capitals can be set; other values are a ValueError and change nothing. Refuted expectations: the text read is the text of the file (CR LF becomes LF); the encoding given decodes the file (it may be broken behind the tested part).", "quantifier": "all files, detectors, codecs, results of charset_normalizer and sizes of the tested part", "why_tests_cant": "Tests detect the encodings of a dozen files; they cannot say what happens for every file or where files are broken.", "anchors": ["dataprofiler/data_readers/data_utils.py: detect_file_encoding, read_text_as_list_of_strs", "dataprofiler/data_readers/base_data.py: file_encoding", "dataprofiler/data_readers/text_data.py: _load_data"]}
{"id": "C107", "title": "How labelers are made and what they share", "statement": "DataLabeler of a kind has the parts of the library's labeler of this kind, or of the directory that is given; load_from_library has those of the named one, load_from_disk those of the directory, load_with_components holds the very objects that are given. A call that fails changes nothing. After any sequence of calls the preprocessor, model and postprocessor of a labeler are of the right kind, and the model of a trainable labeler can be trained; exactly the wrong kinds are refused, a model that cannot be trained with ValueError in trainable labelers, everything else with TypeError. Making labelers changes no other labeler. A change through a labeler is seen by exactly those labelers that hold the same object; labelers that are loaded from the library or from disk never share anything, nor do others as long as only parts that belong to no labeler are given to one. The labeler of a kind equals the library's; labelers are equal exactly if their parts are. What is saved of a labeler in JSON is the name of a labeler of the library, fixed when it is made; one without a name cannot be saved (ValueError). Loading it gives the library's labeler, once for each name and config; a known labeler is never replaced. Refuted expectations: labelers are independent of each other; a labeler of a kind made with an own directory, or one that was changed or trained, comes back from JSON; load_from_disk of an empty path or None fails (it gives a labeler without parts); the labeler of a kind and the one of the library are of one class.", "quantifier": "all sequences of calls that make components and labelers, replace parts and change them, all contents of directories", "why_tests_cant": "Tests make single labelers from mocked files; they do not follow objects through sequences of calls.", "anchors": ["dataprofiler/labelers/base_data_labeler.py: BaseDataLabeler.__init__, set_preprocessor, set_model, set_postprocessor, load_from_library, load_from_disk, load_with_components, __eq__", "dataprofiler/labelers/data_labelers.py: DataLabeler", "dataprofiler/profilers/json_encoder.py: ProfileEncoder.default", "dataprofiler/profilers/profiler_utils.py: reload_labeler_from_options_or_get_new"]}
{"id": "C108", "title": "The median absolute deviation is the radius of half the mass", "statement": "With values spread evenly in bins of one width, the interval from v - m to v + m around the value v at which the histogram is folded holds half of the values, where m is the reported median absolute deviation: up to 1e-10 of the mass, and exactly unless a whole interval of radii holds nearly half. So m lies between all radii that hold less and all that hold more than half. This needs that v is not in the first bin (C60), and that its distances from the edges of its bin, and their difference, are 0 or more than 1e-14. NaN is reported exactly without a histogram or when the statistic is switched off; v is the median of the histogram also when medians are switched off. Refuted expectations: it holds on every scale (for bins narrower than 1e-14 the deviation is 0, with no values within 0 of the median); it holds for bins of different widths.", "quantifier": "all histograms with bins of one width, all values inside their second or a later bin", "why_tests_cant": "Tests compare a few data sets with numpy up to a tolerance; the interleaved edges, thinning of edges and both interpolations have many cases.", "anchors": ["dataprofiler/profilers/numerical_column_stats.py: median_abs_deviation, _fold_histogram"]}
{"id": "C109", "title": "What the numbers of a column are for its cells", "statement": "After any updates and merges the number of samples of a column is the number of its cells and the null count the number of cells that are missing by default: empty, blanks, dashes, underscores, nan, none or null. Every other cell that is written as a number gives the nearest number of double precision, of two equally near ones that with fewer digits, and there is only one such; numbers from (2^54 - 1) * 2^970 on are infinite. It is an integer exactly if what it gives is whole. Match count, sample size, sum, mean, variance, zeros, negatives, and minimum and maximum that are not 0 (C08), of the column as integers and as floats are those of exactly these numbers. At least as many cells are floats as integers. None of this depends on batches, on the order of rows, on how rows are shuffled for sampling, or on merges, as long as all rows are looked at. Refuted expectation: a cell that is not missing and counts as a float is a number (nan after a blank is not missing).", "quantifier": "all trees of updates with any cells and merges of profiles that have cells; for floats, no cell but the missing ones is nan or infinite", "why_tests_cant": "Tests check cleaning, parsing and statistics one by one, each with data prepared for it; what a user sees is the composition, for all batches.", "anchors": ["dataprofiler/profilers/profile_builder.py: StructuredColProfiler.update_profile, clean_data_and_get_base_stats, _update_base_stats, update_column_profilers, __add__", "dataprofiler/profilers/numerical_column_stats.py: NumericStatsMixin.is_float, is_int, _update_helper", "dataprofiler/profilers/int_column_profile.py: update", "dataprofiler/profilers/float_column_profile.py: update"]}
{"id": "C110", "title": "Text statistics and categories of a column for its cells", "statement": "After any updates and merges the text statistics of a column - count, sum, mean, variance, shortest and longest - are exactly those of the lengths of its cells that are not missing by default; shortest and longest are exact here, as no such cell has length 0. The vocabulary has exactly the characters that occur in these cells, each once, if it is switched on in all profiles that were merged, and is empty otherwise. With the numeric statistics switched off the cells are still counted. The categories are exactly these cells, each with the number of its occurrences, and their number is that of the different cells, as long as no thresholds stop the counting. None of this depends on batches, order, shuffling or merges if all rows are looked at. Refuted expectation: merging keeps the vocabulary (it is dropped if it is switched off in one of the profiles).", "quantifier": "all trees of updates with any cells and merges of profiles of one column that have cells, all orders in which sets are listed", "why_tests_cant": "Tests give prepared series to the single profiles; the composition with cleaning, for all batches and merges, is not tested.", "anchors": ["dataprofiler/profilers/text_column_profile.py: TextColumn.__init__, __add__, _update_vocab, _update_helper, update", "dataprofiler/profilers/profiler_utils.py: _combine_unique_sets", "dataprofiler/profilers/categorical_column_profile.py: CategoricalColumn.update, __add__", "dataprofiler/profilers/profile_builder.py: StructuredColProfiler.update_profile, clean_data_and_get_base_stats, __add__"]}
{"id": "C111", "title": "The times in reports", "statement": "For each name the times of a profile show the sum of the durations of exactly those calls of that name that returned; calls that raise leave no time, and a name is shown once such a call has returned. If the clock is never set back, no time is negative, times never shrink, and what is added is at most the time elapsed as long as no call of the name is inside another of the same profile. A merged profile has the times of both added up and the names of both; merging numeric columns adds the time for merging histograms. After any updates and merges of a numeric column the times show exactly the statistics that were switched on while numbers came. Empty batches add nothing; columns whose order is random and columns whose categories are no longer counted add nothing. Refuted expectations: the time of a name is at most the time elapsed (with a sketch of categories the inner steps are counted twice); merging leaves the first operand as it is (the time for merging orders, sketches and correlations is added to it); the time for merging correlations is shown in the merged profile (only its first operand has it).", "quantifier": "all sequences and nestings of timed calls and merges, all clocks, all trees of updates and merges of a numeric column", "why_tests_cant": "Tests replace the clock by a constant step and look at single profiles; nesting, exceptions, operands of merges and histories are not tested.", "anchors": ["dataprofiler/profilers/profiler_utils.py: method_timeit, add_nested_dictionaries", "dataprofiler/profilers/base_column_profilers.py: BaseColumnProfiler._timeit, _add_helper, _merge_calculations", "dataprofiler/profilers/order_column_profile.py: OrderColumn.__add__, _update_order", "dataprofiler/profilers/categorical_column_profile.py: CategoricalColumn.__add__, _update_categories, _get_categories_cms, _merge_categories_cms", "dataprofiler/profilers/numerical_column_stats.py: NumericStatsMixin._add_helper, _update_helper", "dataprofiler/profilers/profile_builder.py: BaseProfiler.__add__, StructuredProfiler.__add__, _merge_correlation"]}
{"id": "C112", "title": "Which profiles a column has, and what failures do to them", "statement": "The first update that works gives a column exactly the profiles (dates, integers, floats, texts, order, categories, labels, in this order) that its options ask for and whose constructors work; a constructor that fails only leads to a warning, unless it is a ValueError, which makes the update fail. Later updates keep the kinds; after updates that all worked each profile is what its constructor and the batches give, none influences another. If the update of one profile raises, those before it have been updated and those after it have not, and the rows are counted all the same. Data of another name are refused and change no profile, but their rows are counted. A failed first update leaves no profiles, so that the next one begins anew, unless it was the labeler that failed: then the others are kept and labels are never made. Columns merge only if both have the same name, the same kinds of profiles and rows; the merged column has the kinds of the first, each merged from both. Not true: that a failed update leaves the profile as it was, and that a column which options ask to label gets labels (refuted).", "quantifier": "for all constructors, updates, merges, options, names and sequences of batches", "why_tests_cant": "Tests use the built-in profiles, which rarely raise; they do not look at the states left behind by failures at every place, nor at later updates after them.", "anchors": ["dataprofiler/profilers/profile_builder.py: StructuredColProfiler.update_column_profilers, __add__, update_profile, _update_base_stats", "dataprofiler/profilers/column_profile_compilers.py: BaseCompiler.__init__, _create_profile, __add__, update_profile", "dataprofiler/profilers/profiler_utils.py: warn_on_profile", "dataprofiler/profilers/profiler_options.py: StructuredOptions.enabled_profiles"]}
{"id": "C113", "title": "Labels of a column whose labeler changes, and merging them", "statement": "Of every batch as many cells are labelled as the option for the largest sample says (1000 if it is missing or 0), all if there are fewer, each cell at most once; updates that work count exactly these cells and updates that fail count none. Once a cell has voted or a report has been read, the column keeps its labels and their order whatever its labeler becomes. While the labeler stays the same, updates do exactly what C38 describes. Two columns can be merged exactly if their labelers are equal, limits, labels and names are the same, and both have no data, or both have votes and equally many labels; other labelers or limits are an AttributeError, other labels a ValueError. Refuted expectations: reports use the labels of the labeler (after its labels were changed, votes go to the former ones), a failed update changes no report (average confidences change, their sum may exceed 1), and a merged column can be updated by data that its operands accept.", "quantifier": "all labelers and changes of them between calls, all cells, samples, columns and limits", "why_tests_cant": "Tests replace the labeler by a constant object; it never changes between updates, and reports after failed updates are not looked at.", "anchors": ["dataprofiler/profilers/data_labeler_column_profile.py: __init__, assert_equal_conditions, __add__, reverse_label_mapping, possible_data_labels, rank_distribution, sum_predictions, label_representation, avg_predictions, _update_predictions, update"]}
{"id": "C114", "title": "Differences of profiles of free text", "statement": "Two profiles of free text that have seen data can always be compared. Type of file and encoding are given if they differ, numbers of samples, of empty lines and the memory by their differences. The sections for labels and statistics are there exactly if both profiles have them. Counts and shares of labels are compared label by label on three levels. Characters and words are compared as sets: those of the first only, of both, of the second only; counts by their differences, among as many of the most common of both as the first profile shows, all if it has no limit. A profile compared with itself shows no change. If only one of them distinguishes capitals its words are put in lower case, once per spelling, with the count of the last spelling. But then the same text gives different words and counts; with a limit words of both are said to be of one only; and without data the comparison fails with an error that depends on the side.", "quantifier": "all histories of updates and merges of both profiles, all limits and settings of capitals, all label counts and settings", "why_tests_cant": "Tests compare two small profiles; that nothing is lost or wrongly listed concerns all pairs of texts, spellings and limits.", "anchors": ["dataprofiler/profilers/unstructured_text_profile.py: TextProfiler.diff", "dataprofiler/profilers/unstructured_labeler_profile.py: UnstructuredLabelerProfile.diff", "dataprofiler/profilers/column_profile_compilers.py: UnstructuredCompiler.diff", "dataprofiler/profilers/profile_builder.py: UnstructuredProfiler.diff"]}
{"id": "C115", "title": "Attributes of data sets", "statement": "Asking a data set for an attribute gives what the data set stores, without loading the data, or what it computes from the data; for names it does not have it gives the attribute of the loaded data, and an AttributeError naming both classes if those have none either. The length is that of the data. An AttributeError from inside an attribute is raised and not taken for a missing attribute. An error of loading is raised and leaves nothing loaded; after a load that succeeds the data are not loaded again, whatever is asked for. Refuted expectations: columns of the loaded data frame are attributes of the data set; an AttributeError while loading is raised (the load is repeated until the recursion is too deep).", "quantifier": "for all classes of data sets and data, all attributes, all sequences of requests and all outcomes of loads", "why_tests_cant": "All orders of requests and all failing loads; tests ask for two attributes.", "anchors": ["dataprofiler/data_readers/base_data.py: BaseData.__getattribute__, data, __len__, length"]}
{"id": "C116", "title": "Schemas in reports and differences", "statement": "The schema in a report lists for each column name the positions of the columns with that name, in order. In the formats for people and for JSON numbers of numpy and other objects become numbers and texts of Python, and the positions of every column are under its name if no two different names are printed alike. The schema of a difference lists the names of the first profile only, of both and of the second only, with their positions; formatting it fails exactly for two profiles without columns in those formats. Refuted expectations: every column is listed (one of two columns whose names print alike is lost); the difference of profiles without columns can be shown in every format.", "quantifier": "for all lists of column names and all formats", "why_tests_cant": "All column names, in particular repeated ones and objects that print alike.", "anchors": ["dataprofiler/profilers/helpers/report_helpers.py: _clean_profile_schema, _prepare_report", "dataprofiler/profilers/profile_builder.py: StructuredProfiler.report, diff", "dataprofiler/profilers/profiler_utils.py: find_diff_of_dicts_with_diff_keys"]}
