{
 "claims": [
  {
   "property": "C01",
   "status": "proved",
   "theorems": [
    "C01_u64_roundtrip",
    "C01_bytes_roundtrip",
    "C01_inline_same",
    "C01_unpack_little_endian"
   ],
   "note": "All parts, for every 64-bit value and every 8-byte sequence."
  },
  {
   "property": "C02",
   "status": "proved",
   "theorems": [
    "C02_float_roundtrip",
    "C02_float_bytes_roundtrip",
    "C02_float_pack_injective",
    "C02_float_inline_same"
   ],
   "note": "All binary64 values including NaN payloads (Flocq)."
  },
  {
   "property": "C03",
   "status": "proved",
   "theorems": [
    "C03_history_decodes",
    "C03_values_grow",
    "C03_codes_are_positions",
    "C03_unknown_code_panics",
    "C03_get_sysval"
   ],
   "note": "All histories of encodings."
  },
  {
   "property": "C04",
   "status": "proved",
   "theorems": [
    "C04_fixed_set_get",
    "C04_fixed_set_succeeds"
   ],
   "note": "Bytes as unbounded N; a Set that would write partially before panicking is modelled as panicking."
  },
  {
   "property": "C05",
   "status": "proved",
   "theorems": [
    "C05_bit_set_get",
    "C05_bit_set_succeeds"
   ],
   "note": "All columns and rows."
  },
  {
   "property": "C06",
   "status": "proved",
   "theorems": [
    "C06_reads_last_write",
    "C06_set_succeeds",
    "C06_bad_set_panics",
    "C06_default_kind",
    "C06_row_count"
   ],
   "note": "Any interleaving of the public mutators, provided Set uses valid specifications and no AddAttributeToAttributeGroup follows an Extend (see C08)."
  },
  {
   "property": "C07",
   "status": "proved",
   "theorems": [
    "C07_extend"
   ],
   "note": "Proved for every dense table reachable by the API."
  },
  {
   "property": "C08",
   "status": "partial",
   "theorems": [
    "C08_layout_frozen_refuted",
    "C08_layout_frozen_partial"
   ],
   "note": "Refuted as stated: AddAttributeToAttributeGroup is accepted after Extend and shifts existing cells. The rest holds (partial theorem)."
  },
  {
   "property": "C09",
   "status": "proved",
   "theorems": [
    "C09_lookup_sound",
    "C09_lookup_complete",
    "C09_lookup_error",
    "C09_add",
    "C09_attributes_added",
    "C09_lookup_exact"
   ],
   "note": "Both directions, for every dense table reachable by the API."
  },
  {
   "property": "C10",
   "status": "proved",
   "theorems": [
    "C10_map_over_rows",
    "C10_all_rows_seen",
    "C10_rows_readable"
   ],
   "note": "Callback state and result arbitrary; an error returned by the callback is the flag true."
  },
  {
   "property": "C11",
   "status": "proved",
   "theorems": [
    "C11_shuffle_permutes",
    "C11_shuffle_reachable",
    "C11_equal_columns_refuted"
   ],
   "note": "For instances with pairwise non-Equal attributes; the refuted theorem shows why that is needed (two Equal columns)."
  },
  {
   "property": "C12",
   "status": "proved",
   "theorems": [
    "C12_view_rows",
    "C12_view_attributes",
    "C12_view_total",
    "C12_unknown_attribute_panics"
   ],
   "note": "Every FixedDataGrid source (interface as a record of methods)."
  },
  {
   "property": "C13",
   "status": "partial",
   "theorems": [
    "C13_iteration_agrees_refuted",
    "C13_visible_rows_partial",
    "C13_attributes_partial",
    "C13_dense"
   ],
   "note": "Refuted for row-remapped views (MapOverRows ignores the row map); proved for visible-row and attribute views and DenseInstances, for every map iteration order."
  },
  {
   "property": "C14",
   "status": "partial",
   "theorems": [
    "C14_lazy_shuffle_permutes_refuted",
    "C14_rows_from_source_partial"
   ],
   "note": "Refuted (three rows, all draws 0 lose row 1); proved: row count kept and all rows come from the source."
  },
  {
   "property": "C15",
   "status": "partial",
   "theorems": [
    "C15_sample_size_refuted",
    "C15_sample_partial"
   ],
   "note": "Refuted for size smaller than the source (row count reported is the source's); partial theorem gives the exact count and content."
  },
  {
   "property": "C16",
   "status": "partial",
   "theorems": [
    "C16_dense_split_partial",
    "C16_other_split_refuted"
   ],
   "note": "Proved for DenseInstances (all proportions and draws); refuted for other sources, which go through LazyShuffle."
  },
  {
   "property": "C17",
   "status": "proved",
   "theorems": [
    "C17_decompose",
    "C17_decompose_dense"
   ],
   "note": "Any grid whose iteration agrees with reading (C13); corollary for DenseInstances without that hypothesis. Row order is ascending when iteration is in order (DenseInstances)."
  },
  {
   "property": "C18",
   "status": "proved",
   "theorems": [
    "C18_threshold",
    "C18_threshold_dense"
   ],
   "note": "As C17; all float values including NaN and infinities."
  },
  {
   "property": "C19",
   "status": "proved",
   "theorems": [
    "C19_distribution",
    "C19_after_split",
    "C19_after_threshold"
   ],
   "note": "Rows whose class value decodes."
  },
  {
   "property": "C20",
   "status": "partial",
   "theorems": [
    "C20_categorical_counts_refuted",
    "C20_categorical_at_most_one",
    "C20_binary_counts_refuted",
    "C20_binary_at_most_one"
   ],
   "note": "Refuted: both functions stop after one row; the at_most_one theorems show the counts never sum to more than 1."
  },
  {
   "property": "C21",
   "status": "proved",
   "theorems": [
    "C21_sort_permutes"
   ],
   "note": "All reachable tables with distinct attributes, all lists of their columns, both directions."
  },
  {
   "property": "C22",
   "status": "partial",
   "theorems": [
    "C22_sorted_negative_refuted",
    "C22_sorted_positive_refuted",
    "C22_sorted_partial",
    "C22_bit_patterns_partial"
   ],
   "note": "False: negative floats sort after positive ones, and bit 7 of the last attribute's pattern is flipped (two refutations). Proved: the exact order (bit patterns with that flip, stable), and the numeric order for non-negative floats with that bit clear."
  },
  {
   "property": "C23",
   "status": "proved",
   "theorems": [
    "C23_lazy_sort_agrees"
   ],
   "note": "All reachable tables with distinct attributes."
  },
  {
   "property": "C24",
   "status": "partial",
   "theorems": [
    "C24_byte_seq_equal",
    "C24_instances_equal_refuted",
    "C24_always_true_partial"
   ],
   "note": "Refuted: InstancesAreEqual compares its first argument with itself and always answers true."
  },
  {
   "property": "C25",
   "status": "proved",
   "theorems": [
    "C25_check_compatible",
    "C25_check_compatible_symmetric",
    "C25_check_compatible_duplicates_refuted"
   ],
   "note": "For tables whose attributes are pairwise non-Equal; the refuted theorem shows duplicates break it."
  },
  {
   "property": "C26",
   "status": "proved",
   "theorems": [
    "C26_intersect_difference_split",
    "C26_nonclass_attributes",
    "C26_refs_partition",
    "C26_nonclass_float_attributes"
   ],
   "note": "Includes every map iteration order."
  },
  {
   "property": "C27",
   "status": "proved",
   "theorems": [
    "C27_equals_equivalence",
    "C27_equals_compatible",
    "C27_equals_meaning"
   ],
   "note": "For the three attribute types of the package."
  },
  {
   "property": "C28",
   "status": "partial",
   "theorems": [
    "C28_get_unfiltered",
    "C28_get_filtered",
    "C28_iteration_refuted",
    "C28_iteration_partial",
    "C28_chimerge_leaves_alone"
   ],
   "note": "Get on filtered and unfiltered attributes proved for every filter. That iteration agrees with Get is refuted (BinaryConvertFilter not covering a float attribute that is iterated over); proved for filters leaving unfiltered attributes alone, which ChiMerge is shown to do."
  },
  {
   "property": "C29",
   "status": "partial",
   "theorems": [
    "C29_rows",
    "C29_columns_refuted",
    "C29_columns_partial"
   ],
   "note": "Row count proved; column count refuted for expanding filters, proved when each filtered attribute has one new attribute."
  },
  {
   "property": "C30",
   "status": "proved",
   "theorems": [
    "C30_float_columns",
    "C30_binary_columns",
    "C30_float_one_hot",
    "C30_binary_one_hot",
    "C30_float_two_valued",
    "C30_binary_two_valued",
    "C30_binary_passes_through",
    "C30_float_passes_through",
    "C30_float_of_binary",
    "C30_constants"
   ],
   "note": "Generated columns and Transform of both filters."
  },
  {
   "property": "C31",
   "status": "partial",
   "theorems": [
    "C31_nonzero_refuted",
    "C31_positive_partial"
   ],
   "note": "Refuted (-1 becomes 0); what holds is 1 exactly for values above zero."
  },
  {
   "property": "C32",
   "status": "proved",
   "theorems": [
    "C32_train",
    "C32_train_total",
    "C32_monotone",
    "C32_minimum",
    "C32_range",
    "C32_equal_width"
   ],
   "note": "Over real numbers, as the property says; the tolerance of 1/10000 of a bin in the code is part of the equal-width theorem."
  },
  {
   "property": "C33",
   "status": "proved",
   "theorems": [
    "C33_merge_step",
    "C33_chi_merge",
    "C33_least_statistic",
    "C33_start_increases"
   ],
   "note": "For every chi statistic and significance test (both are parameters of the model)."
  },
  {
   "property": "C34",
   "status": "proved",
   "theorems": [
    "C34_transform",
    "C34_monotone"
   ],
   "note": "For every table of intervals and every float, NaN included."
  },
  {
   "property": "C35",
   "status": "partial",
   "theorems": [
    "C35_duplicate_names_refuted",
    "C35_fields_partial",
    "C35_fields_no_header",
    "C35_total",
    "C35_number"
   ],
   "note": "False for columns with the same name and type: the second overwrites the first (C35_duplicate_names_refuted). Proved for distinct names with header and for every file without header; success on well-formed files is C35_total. encoding/csv and strconv.ParseFloat are not modelled (any ParseFloat is allowed)."
  },
  {
   "property": "C36",
   "status": "partial",
   "theorems": [
    "C36_plain_rows",
    "C36_templated_rows",
    "C36_grouped_refuted",
    "C36_grouped_partial"
   ],
   "note": "Proved for the plain and the templated parser; false for the parser with attribute groups when there is a header (one zero row too many)."
  },
  {
   "property": "C37",
   "status": "partial",
   "theorems": [
    "C37_round_trip_partial",
    "C37_dense_partial",
    "C37_archive_partial",
    "C37_short_reads",
    "C37_short_read_refuted",
    "C37_row_order_refuted"
   ],
   "note": "Proved for grids whose MapOverRows goes in row order and readers that fill the buffer, in particular for every DenseInstances built through the interface; the archive, gzip and JSON codecs are trusted. Two refutations: a reader that returns fewer bytes than asked for (as compress/flate does at its 32 KiB window) makes reading fail, and views that select rows are written in map iteration order."
  },
  {
   "property": "C38",
   "status": "partial",
   "theorems": [
    "C38_bytes_partial",
    "C38_u64_partial",
    "C38_attribute_partial",
    "C38_attributes_partial",
    "C38_absent",
    "C38_repeated_refuted"
   ],
   "note": "Proved for every sequence of writes in which the key is written once, and absent keys are reported. Refuted for repeated keys: the first value is returned although the documentation promises the most recent."
  },
  {
   "property": "C39",
   "status": "partial",
   "theorems": [
    "C39_attribute_partial",
    "C39_attributes_partial",
    "C39_again_panics",
    "C39_again_refuted"
   ],
   "note": "Proved for UTF-8 names and values and precisions up to 2^53, encoding/json being trusted. Refuted for a categorical attribute without values that went through one round trip already: the second one panics."
  },
  {
   "property": "C40",
   "status": "proved",
   "theorems": [
    "C40_cells",
    "C40_total",
    "C40_mismatch"
   ],
   "note": "for any two grids; labels read by GetClass"
  },
  {
   "property": "C41",
   "status": "proved",
   "theorems": [
    "C41_counts"
   ],
   "note": "every class, every map iteration order; counts kept as integers (exact in float64 below 2^53)"
  },
  {
   "property": "C42",
   "status": "proved",
   "theorems": [
    "C42_accuracy"
   ],
   "note": "exact quotient instead of the rounded float64"
  },
  {
   "property": "C43",
   "status": "partial",
   "theorems": [
    "C43_micro_precision_refuted",
    "C43_micro_precision_partial"
   ],
   "note": "false when a generated label is absent from the reference (C43_micro_precision_refuted); proved otherwise"
  },
  {
   "property": "C44",
   "status": "proved",
   "theorems": [
    "C44_folds",
    "C44_counts",
    "C44_total"
   ],
   "note": "any classifier, any fold assignment drawn; views as in C12"
  },
  {
   "property": "C45",
   "status": "proved",
   "theorems": [
    "C45_heap"
   ],
   "note": "Histories of insert/extractMax of any length from an empty heap; distances are rationals (finite float64 values, only compared)."
  },
  {
   "property": "C46",
   "status": "proved",
   "theorems": [
    "C46_build",
    "C46_build_error"
   ],
   "note": "For every sorting procedure (order of equal keys unspecified) and all data of at least one feature; empty or ragged data is an error."
  },
  {
   "property": "C47",
   "status": "partial",
   "theorems": [
    "C47_nearest_refuted",
    "C47_nearest_general_partial",
    "C47_nearest_partial",
    "C47_search_error"
   ],
   "note": "False as stated (C47_nearest_refuted): nil nodes are offered as row 0 placed at the origin, so a row may be returned twice. Proved in general: the k smallest of the rows plus some copies of (origin, row 0); the full statement when the tree has no nil node or all rows are strictly closer than the origin."
  },
  {
   "property": "C48",
   "status": "proved",
   "theorems": [
    "C48_vote",
    "C48_weighted"
   ],
   "note": "float64 values are rationals; weights are exact sums with +Inf for a zero distance, distances non-negative."
  },
  {
   "property": "C49",
   "status": "partial",
   "theorems": [
    "C49_linear",
    "C49_neighbours",
    "C49_too_many",
    "C49_kdtree_partial",
    "C49_too_many_kdtree",
    "C49_too_many_kdtree_refuted"
   ],
   "note": "Linear search proved end to end on the prediction grid. The k-d tree is proved under the condition that training rows are closer than the origin (its padding, C47) and, for k above the number of rows, refuted: it silently predicts the first class value."
  },
  {
   "property": "C50",
   "status": "proved",
   "theorems": [
    "C50_tree",
    "C50_children_sum",
    "C50_generators"
   ],
   "note": "Training data must be consistent (distinct attributes, readable cells); the rule generator is any function whose rules split on a non-class attribute, which the four generators of the library are shown to meet."
  },
  {
   "property": "C51",
   "status": "partial",
   "theorems": [
    "C51_predict_partial",
    "C51_training",
    "C51_empty_refuted"
   ],
   "note": "Proved for non-empty training sets; refuted for an empty one: the tree has an empty map of children and prediction panics."
  },
  {
   "property": "C52",
   "status": "partial",
   "theorems": [
    "C52_prune_partial",
    "C52_trained_usable",
    "C52_numeric_refuted",
    "C52_unseen_refuted"
   ],
   "note": "Proved for trees with non-numeric splits when every value met has a child. Refuted with numeric splits (rows are shared out by formatted value, not by threshold) and with unseen values (routed to a child that was pruned without them)."
  },
  {
   "property": "C53",
   "status": "partial",
   "theorems": [
    "C53_first",
    "C53_gini_refuted"
   ],
   "note": "Refuted: the computed Gini index is 1 for every distribution, so the first candidate is always chosen (C53_first)."
  },
  {
   "property": "C54",
   "status": "proved",
   "theorems": [
    "C54_split",
    "C54_next"
   ],
   "note": "createSplit and the incremental updateSplit"
  },
  {
   "property": "C55",
   "status": "partial",
   "theorems": [
    "C55_label_partial",
    "C55_no_split",
    "C55_pure_refuted",
    "C55_depth_refuted"
   ],
   "note": "Holds if some split lowers the impurity of the training samples (C55_label_partial). Refuted otherwise: a root without a split predicts label 0 (C55_pure_refuted, C55_no_split), as does a maximum depth of 0 (C55_depth_refuted). math.Log2 is an oracle returning finite numbers in [-1100,0] on shares; the data are such that binary64 middles separate different values."
  },
  {
   "property": "C56",
   "status": "proved",
   "theorems": [
    "C56_depth",
    "C56_leaves",
    "C56_path",
    "C56_bound",
    "C56_correction"
   ],
   "note": "depth, leaf sizes, exact path and its bounds for every random source; math.Log enters by its accuracy (log_close), shown inhabited in IsoOracle"
  },
  {
   "property": "C57",
   "status": "proved",
   "theorems": [
    "C57_valid"
   ],
   "note": "All tables, metrics, eps and MinCount."
  },
  {
   "property": "C58",
   "status": "partial",
   "theorems": [
    "C58_ends",
    "C58_returns_partial",
    "C58_refuted"
   ],
   "note": "DBSCAN always ends (C58_ends) and returns when no row is a border row (C58_returns_partial); with border rows it can panic (C58_refuted)."
  },
  {
   "property": "C59",
   "status": "proved",
   "theorems": [
    "C59_invert"
   ],
   "note": "All maps and iteration orders."
  },
  {
   "property": "C60",
   "status": "partial",
   "theorems": [
    "C60_renaming_equal",
    "C60_equal_renaming_partial",
    "C60_empty_refuted"
   ],
   "note": "Renaming implies Equals for all valid maps; Equals implies renaming when the receiver has no empty cluster; refuted with an empty cluster."
  },
  {
   "property": "C61",
   "status": "proved",
   "theorems": [
    "C61_totals",
    "C61_prediction",
    "C61_majority"
   ],
   "note": "Interleaving model of the goroutines and channels of Predict: vote totals are exact in every schedule; the prediction has the maximal number of votes; a strict majority determines it."
  },
  {
   "property": "C62",
   "status": "proved",
   "theorems": [
    "C62_selected",
    "C62_same_at_prediction",
    "C62_ends",
    "C62_too_many_hangs"
   ],
   "note": "Random numbers are arbitrary; termination for fair sources; with too many features requested the selection never ends (C62_too_many_hangs)."
  },
  {
   "property": "C63",
   "status": "proved",
   "theorems": [
    "C63_best"
   ],
   "note": "Scores are binary64 numbers incl. NaN; if no score is positive class 0 is predicted, as best_scoring says."
  },
  {
   "property": "C64",
   "status": "proved",
   "theorems": [
    "C64_estimates",
    "C64_fit",
    "C64_fit_errors",
    "C64_predict_one",
    "C64_predict"
   ],
   "note": "math.Log is an oracle assumed to map (0,1] to [-1024,0] (sane_log); fewer than 2^53 rows and 2^43 features; map orders arbitrary; any state before Fit."
  },
  {
   "property": "C65",
   "status": "partial",
   "theorems": [
    "C65_labels_ignored",
    "C65_predict",
    "C65_untrained",
    "C65_overwritten_refuted",
    "C65_single_row_refuted"
   ],
   "note": "The claim is false of the code and the theorems say exactly how: Fit gives the same perceptron whatever the labels (C65_labels_ignored, for all training sets), Predict fills every row as its weighted sum asks except row 1, which later negative rows overwrite (C65_predict, exact for all sets of two rows or more), with witnesses for the overwritten row and for the panic on a single negative row."
  },
  {
   "property": "C66",
   "status": "proved",
   "theorems": [
    "C66_new",
    "C66_weight",
    "C66_bias",
    "C66_never_connects"
   ],
   "note": "For every arithmetic, every sound network (as NewNetwork makes them, C66_new) and every pair of nodes; C66_never_connects for every sequence of UpdateWeights and UpdateBias calls on float64, from the first update on."
  },
  {
   "property": "C67",
   "status": "partial",
   "theorems": [
    "C67_float_partial",
    "C67_two_values",
    "C67_hidden_unread",
    "C67_hidden_refuted",
    "C67_order_refuted",
    "C67_two_refuted"
   ],
   "note": "C67_float_partial: proved for numeric data with one numeric class (the prediction is the feed-forward value of the output node). False otherwise: C67_two_refuted (two-valued class), C67_hidden_refuted (with hidden layers Predict reads hidden nodes), C67_order_refuted (class nodes are numbered in map order). Missing: categorical class of three or more values without hidden layers."
  },
  {
   "property": "C68",
   "status": "proved",
   "theorems": [
    "C68_values",
    "C68_metrics",
    "C68_shapes",
    "C68_float",
    "C68_euclidean_underflow_refuted",
    "C68_cranberra_overflow_refuted",
    "C68_triangle_refuted"
   ],
   "note": "Metric laws over the reals for all four (Canberra included, with its triangle inequality); symmetry, sign and zero laws for the same code in float64. The float64 laws that fail (underflow, overflow, rounding of the triangle inequality) are refuted by witnesses."
  },
  {
   "property": "C69",
   "status": "partial",
   "theorems": [
    "C69_cosine",
    "C69_rbf",
    "C69_poly",
    "C69_poly_refuted",
    "C69_poly_columns_refuted",
    "C69_cosine_float_refuted"
   ],
   "note": "False as stated: the polynomial kernel distance of any vector to itself is 1, it reads only the first column, and the cosine distance in float64 can be negative or NaN on a vector and itself. Proved for cosine (non-zero vectors, reals) and the radial kernel (which has no Distance, its self-similarity is 1)."
  },
  {
   "property": "C70",
   "status": "proved",
   "theorems": [
    "C70_fit",
    "C70_order",
    "C70_errors",
    "C70_predict"
   ],
   "note": "Over the reals (the code instantiated with exact arithmetic), for every training set, every order of the variables and every QR routine that factorises the design matrix: C70_fit (normal equations, minimality, uniqueness), C70_order (the model does not depend on the iteration order), C70_errors (any arithmetic), C70_predict (float64, rounded operations in order). The QR factorisation of gonum is an oracle; float64 rounding of Fit is not bounded."
  },
  {
   "property": "C71",
   "status": "proved",
   "theorems": [
    "C71_rejects",
    "C71_accepts",
    "C71_ends"
   ],
   "note": "Trees abstract (any classifier); ForestSize negative counts as 0."
  },
  {
   "property": "C72",
   "status": "partial",
   "theorems": [
    "C72_kind",
    "C72_new",
    "C72_rejected_refuted"
   ],
   "note": "C72_kind and C72_new: for all strings, parameters and forms a supported combination selects a liblinear solver for exactly that loss and penalty, an unsupported one is reported, NewLinearSVC succeeds exactly for the supported triples. The last clause is false: C72_rejected_refuted shows that after a rejection the parameters select solver 0, a logistic regression."
  },
  {
   "property": "C73",
   "status": "partial",
   "theorems": [
    "C73_counts_refuted",
    "C73_counts_partial"
   ],
   "note": "Refuted for Train (lazily sorted view); the table builder itself is proved to count correctly on data whose iteration agrees with reading."
  },
  {
   "property": "C74",
   "status": "partial",
   "theorems": [
    "C74_remove_undoes_add_refuted",
    "C74_remove_undoes_add_partial"
   ],
   "note": "Refuted for expanding filters; proved when one filtered attribute matches."
  },
  {
   "property": "C75",
   "status": "partial",
   "theorems": [
    "C75_precision_refuted",
    "C75_precision_partial"
   ],
   "note": "False: the unescaped dot in the regular expression also matches separators, and only the first six lines are read. Proved: a positive estimate is the precision of some number in the file."
  },
  {
   "property": "C76",
   "status": "partial",
   "theorems": [
    "C76_macro_recall",
    "C76_macro_precision_refuted",
    "C76_macro_precision_nan",
    "C76_macro_precision_partial"
   ],
   "note": "recall proved; macro precision is NaN as soon as a reference label is never generated (refuted, with the exact condition proved in C76_macro_precision_nan and the rest in _partial)"
  },
  {
   "property": "C77",
   "status": "partial",
   "theorems": [
    "C77_f1_partial",
    "C77_f1_refuted"
   ],
   "note": "false when precision and recall are both 0 (NaN); proved for every class with a true positive"
  },
  {
   "property": "C78",
   "status": "proved",
   "theorems": [
    "C78_mean_variance"
   ],
   "note": "metric values rational, exact arithmetic instead of rounded float64"
  },
  {
   "property": "C79",
   "status": "proved",
   "theorems": [
    "C79_mean"
   ],
   "note": "The sum is exact (rationals)."
  },
  {
   "property": "C80",
   "status": "partial",
   "theorems": [
    "C80_optimised_partial",
    "C80_weighted_refuted"
   ],
   "note": "Unweighted voting proved on the attribute-group storage given as rationals; refuted for Weighted, which the optimised path ignores. How groups are laid out in DenseInstances is not linked to this model."
  },
  {
   "property": "C81",
   "status": "partial",
   "theorems": [
    "C81_accepts",
    "C81_exact_partial",
    "C81_refuted"
   ],
   "note": "Exact when groups of the same name have the same length; refuted otherwise (a longer second group is accepted, a shorter one panics)."
  },
  {
   "property": "C82",
   "status": "partial",
   "theorems": [
    "C82_structure_partial",
    "C82_next_write_fails",
    "C82_refuted"
   ],
   "note": "Proved for instances without rows; with rows the next write and closing fail (C82_next_write_fails, C82_refuted), because the header announces data that is not written."
  },
  {
   "property": "C83",
   "status": "proved",
   "theorems": [
    "C83_shares"
   ],
   "note": "Shares are exact rationals; sort.Sort is any function that returns a sorted permutation."
  },
  {
   "property": "C84",
   "status": "partial",
   "theorems": [
    "C84_ends_partial",
    "C84_hangs",
    "C84_nan_refuted"
   ],
   "note": "Proved when all values are finite; refuted for a column of NaNs, on which the search never ends."
  },
  {
   "property": "C85",
   "status": "partial",
   "theorems": [
    "C85_random_partial",
    "C85_hangs",
    "C85_too_many_refuted"
   ],
   "note": "Proved when no more attributes are asked for than there are and every index is drawn again and again; refuted (never ends) when more are asked for."
  },
  {
   "property": "C86",
   "status": "proved",
   "theorems": [
    "C86_gain",
    "C86_ratio"
   ],
   "note": "Entropies come from functions that are parameters of the model (they take logarithms)."
  },
  {
   "property": "C87",
   "status": "partial",
   "theorems": [
    "C87_threshold_partial",
    "C87_duplicates_refuted"
   ],
   "note": "Proved when the sorted values are different and far enough apart for middles to lie between them; refuted with equal values: middles are skipped."
  },
  {
   "property": "C88",
   "status": "proved",
   "theorems": [
    "C88_rows",
    "C88_refused"
   ],
   "note": "For all tables; refused tables give an error."
  },
  {
   "property": "C89",
   "status": "proved",
   "theorems": [
    "C89_best"
   ],
   "note": "for the classifier, whose impurities do not depend on the order of the samples; the middles of different values of a feature must separate them in binary64"
  },
  {
   "property": "C90",
   "status": "proved",
   "theorems": [
    "C90_classifier",
    "C90_regressor"
   ],
   "note": "For classifiers and regressors, all criteria and contents."
  },
  {
   "property": "C91",
   "status": "partial",
   "theorems": [
    "C91_classifier_partial",
    "C91_regressor_partial",
    "C91_overflow_refuted"
   ],
   "note": "Proved if binary64 middles separate different values of a feature; refuted for finite numbers whose sum overflows (C91_overflow_refuted: panic)."
  },
  {
   "property": "C92",
   "status": "partial",
   "theorems": [
    "C92_mean_partial",
    "C92_no_split",
    "C92_constant_refuted"
   ],
   "note": "Proved if the root splits the samples; refuted for constant targets, where 0 is predicted (C92_constant_refuted)."
  },
  {
   "property": "C93",
   "status": "proved",
   "theorems": [
    "C93_predict",
    "C93_evaluate"
   ],
   "note": "accuracy as the pair of its numerator and denominator"
  },
  {
   "property": "C94",
   "status": "proved",
   "theorems": [
    "C94_error",
    "C94_pure"
   ],
   "note": "at most 2^53 samples and 2^49 distinct labels"
  },
  {
   "property": "C95",
   "status": "partial",
   "theorems": [
    "C95_range",
    "C95_order",
    "C95_single_refuted"
   ],
   "note": "strictly between 0 and 1 and ordered, for >= 2 samples per tree and max depth + 110 <= 900 * average path; refuted for one sample per tree (every score 1); math.Log and math.Pow by accuracy hypotheses"
  },
  {
   "property": "C96",
   "status": "partial",
   "theorems": [
    "C96_ends",
    "C96_nan_refuted"
   ],
   "note": "proved for tables without NaN; refuted with a NaN beside constant features (draws never end)"
  },
  {
   "property": "C97",
   "status": "partial",
   "theorems": [
    "C97_leaves",
    "C97_threshold",
    "C97_close_refuted"
   ],
   "note": "proved for values at least 2/1000000 apart and at most 2^30 in size; refuted for neighbouring binary64 values whatever the draw"
  },
  {
   "property": "C98",
   "status": "proved",
   "theorems": [
    "C98_reads",
    "C98_panics",
    "C98_rowwise"
   ],
   "note": "For all tables, forests and map orders."
  },
  {
   "property": "C99",
   "status": "proved",
   "theorems": [
    "C99_reached"
   ],
   "note": "All tables, metrics, eps and MinCount; distances as computed, 0 on the diagonal."
  },
  {
   "property": "C100",
   "status": "partial",
   "theorems": [
    "C100_together",
    "C100_components_partial",
    "C100_lost_refuted"
   ],
   "note": "Near core rows stay together (all tables); clusters are exactly the components when there are no border rows; a core row can be lost otherwise (C100_lost_refuted)."
  },
  {
   "property": "C101",
   "status": "proved",
   "theorems": [
    "C101_predict"
   ],
   "note": "The log-probabilities of the fitted normal distributions are an oracle; no NaN among them."
  },
  {
   "property": "C102",
   "status": "proved",
   "theorems": [
    "C102_bits"
   ],
   "note": "For all non-negative integers."
  },
  {
   "property": "C103",
   "status": "proved",
   "theorems": [
    "C103_rows"
   ],
   "note": "At least one attribute; no attribute panics in gonum."
  },
  {
   "property": "C104",
   "status": "partial",
   "theorems": [
    "C104_returns",
    "C104_failing_model_refuted"
   ],
   "note": "Proved when every model's Predict succeeds; refuted without that (the error is dropped and a nil grid is used)."
  },
  {
   "property": "C105",
   "status": "partial",
   "theorems": [
    "C105_tie_refuted"
   ],
   "note": "Refuted: one and the same execution may output either class, depending on map order. C61_majority is what holds."
  },
  {
   "property": "C106",
   "status": "partial",
   "theorems": [
    "C106_get_partial",
    "C106_map_ignores_sample",
    "C106_same_rows_refuted"
   ],
   "note": "Proved for Get; refuted for MapOverRows, which ignores the sample (C106_map_ignores_sample)."
  },
  {
   "property": "C107",
   "status": "proved",
   "theorems": [
    "C107_relabelled",
    "C107_fits",
    "C107_panics"
   ],
   "note": "Attribute names distinct from the class's."
  },
  {
   "property": "C108",
   "status": "proved",
   "theorems": [
    "C108_order"
   ],
   "note": "Goroutines of Fit run one after another in the model, in any order."
  },
  {
   "property": "C109",
   "status": "partial",
   "theorems": [
    "C109_sparse_refuted",
    "C109_empty_refuted"
   ],
   "note": "False as stated: a class without any feature present makes Fit panic, and training on no rows answers the empty string. C64_fit gives the exact condition."
  },
  {
   "property": "C110",
   "status": "partial",
   "theorems": [
    "C110_no_effect",
    "C110_weights_refuted"
   ],
   "note": "False of the code. C110_no_effect: for every training set the automatic weights are 1 and 1, the same as without automatic weighting (the class counter stops after the first row). C110_weights_refuted: witness with two rows of one class and one of the other."
  },
  {
   "property": "C111",
   "status": "partial",
   "theorems": [
    "C111_weights",
    "C111_used",
    "C111_none",
    "C111_order_refuted"
   ],
   "note": "C111_weights, C111_none: the weights for every map and order, up to the order of the float summation. 'Identically on every run' is false: C111_order_refuted gives two iteration orders with different sums."
  },
  {
   "property": "C112",
   "status": "partial",
   "theorems": [
    "C112_dependent_refuted"
   ],
   "note": "False of the code: C112_dependent_refuted, a constant zero variable gives infinite and NaN coefficients and predictions without an error."
  },
  {
   "property": "C113",
   "status": "partial",
   "theorems": [
    "C113_starting_threshold_ignored",
    "C113_arguments_mixed_up",
    "C113_rate_refuted"
   ],
   "note": "Refuted: the starting threshold never has an effect (C113_starting_threshold_ignored, all inputs), learningRate is the threshold and trainError the rate (C113_arguments_mixed_up, all inputs), with a witness."
  },
  {
   "property": "C114",
   "status": "partial",
   "theorems": [
    "C114_two_of_three",
    "C114_rows_refuted"
   ],
   "note": "Refuted for all inputs: among any three training sets of the same size with the same last row two give the same predictions everywhere (C114_two_of_three); concrete witness C114_rows_refuted."
  },
  {
   "property": "C115",
   "status": "partial",
   "theorems": [
    "C115_moves",
    "C115_weak_refuted",
    "C115_late_refuted"
   ],
   "note": "C115_moves gives the exact effect of the first update for every network; the claim itself fails for connections of strength at most 0.005 (C115_weak_refuted) and for connections set after the first update (C115_late_refuted)."
  },
  {
   "property": "C116",
   "status": "proved",
   "theorems": [
    "C116_settles"
   ],
   "note": "float64; gonum's Mul is taken to add from the first to the last element and to skip zero weights (Dgemm). Inputs may not be NaN or negative zero (a negative zero becomes a positive one)."
  },
  {
   "property": "C117",
   "status": "proved",
   "theorems": [
    "C117_gradient",
    "C117_descent"
   ],
   "note": "Over the real numbers (the code with its arithmetic read as exact); rounding is not covered. The step theorem is for connections stronger than 0.005, see C115."
  },
  {
   "property": "C118",
   "status": "partial",
   "theorems": [
    "C118_sigmoid",
    "C118_linear",
    "C118_softplus_refuted"
   ],
   "note": "Proved for Sigmoid and Linear over the reals; SoftplusRectifier refuted (C118_softplus_refuted)."
  },
  {
   "property": "C119",
   "status": "proved",
   "theorems": [
    "C119_layers",
    "C119_connected"
   ],
   "note": "For all layer sizes and random weights, before and after training."
  },
  {
   "property": "C120",
   "status": "partial",
   "theorems": [
    "C120_others_partial",
    "C120_last_refuted"
   ],
   "note": "C120_others_partial: all but the last output node. C120_last_refuted: the last output node's bias is never set."
  },
  {
   "property": "C121",
   "status": "partial",
   "theorems": [
    "C121_never",
    "C121_refuted"
   ],
   "note": "C121_refuted: with a converted input Predict never succeeds, because the converted attribute is not among the attributes of the data."
  },
  {
   "property": "C122",
   "status": "partial",
   "theorems": [
    "C122_never",
    "C122_refuted"
   ],
   "note": "C122_refuted: classAttrCount accumulates, so without hidden layers Predict reads beyond the last node."
  },
  {
   "property": "C123",
   "status": "proved",
   "theorems": [
    "C123_read"
   ],
   "note": "For ASCII files generated by the grammar arff_file of ArffSpec.v; ParseFloat is an oracle."
  },
  {
   "property": "C124",
   "status": "partial",
   "theorems": [
    "C124_round_trip_partial",
    "C124_blank_value_refuted",
    "C124_blank_name_refuted",
    "C124_percent_refuted"
   ],
   "note": "Round trip proved for names that are words, plain categories, numbers written plainly, lines within the scanner's limit; refuted for values or names with blanks (the file cannot be read) and for rows that begin with a percent sign (lost)."
  },
  {
   "property": "C125",
   "status": "partial",
   "theorems": [
    "C125_listing_partial",
    "C125_mixed_refuted",
    "C125_brackets_refuted"
   ],
   "note": "Proved for blanks after every comma or after none; refuted for {x,y, z} and { x, y }."
  },
  {
   "property": "C126",
   "status": "partial",
   "theorems": [
    "C126_invalid_partial",
    "C126_type",
    "C126_short_row_refuted",
    "C126_long_row_refuted"
   ],
   "note": "An invalid value in a file with rows of the right width is an error; refuted for rows that are too short (values made up) and too long (reading stops, panic(nil) swallowed)."
  },
  {
   "property": "C127",
   "status": "proved",
   "theorems": [
    "C127_any_text"
   ],
   "note": "For every text for which the parser returns instances."
  },
  {
   "property": "C128",
   "status": "partial",
   "theorems": [
    "C128_rows_partial",
    "C128_long_line_refuted",
    "C128_blank_refuted"
   ],
   "note": "Proved for well-formed files; refuted for a line longer than 65535 bytes (bufio.Scanner stops, its error is ignored) and for a blank after @data (panic)."
  },
  {
   "property": "C129",
   "status": "partial",
   "theorems": [
    "C129_overwrite_partial",
    "C129_longer_refuted",
    "C129_new_refuted"
   ],
   "note": "Proved when the existing file is not longer than the new text; refuted for a longer file (its tail stays) and for a file that does not exist. SerializeInstancesToCSV opens its file with the same flags."
  },
  {
   "property": "C130",
   "status": "partial",
   "theorems": [
    "C130_class_partial",
    "C130_order_refuted"
   ],
   "note": "Every attribute is written once and a single class attribute is last and restored by reading, for every map order; refuted: the order of the other columns depends on the map order."
  },
  {
   "property": "C131",
   "status": "partial",
   "theorems": [
    "C131_copy_partial",
    "C131_dense_partial",
    "C131_order_refuted",
    "C131_duplicates_refuted",
    "C131_groups_refuted"
   ],
   "note": "Proved (as sets of attributes with their columns) for data sets whose attributes are pairwise not Equal and whose cells have the default size, which holds of DenseInstances built by AddAttribute (C131_dense_partial). Refuted: the order of attributes of a view is not kept; of two Equal columns the first is copied twice; columns in custom AttributeGroups make it panic."
  },
  {
   "property": "C132",
   "status": "proved",
   "theorems": [
    "C132_structural_copy"
   ],
   "note": "For data sets with pairwise not Equal attributes that GetAttribute finds. The order of attributes is as for C131."
  },
  {
   "property": "C133",
   "status": "proved",
   "theorems": [
    "C133_matrix",
    "C133_class_errors"
   ],
   "note": "For rows and cols within the matrix; see C135 for the others. The difference that a MapOverRows callback which returns true with an error does not stop the loop is not modelled."
  },
  {
   "property": "C134",
   "status": "proved",
   "theorems": [
    "C134_matrix_copy"
   ],
   "note": "Bit for bit, for rows and cols within the matrix."
  },
  {
   "property": "C135",
   "status": "partial",
   "theorems": [
    "C135_rows_refuted",
    "C135_columns_refuted"
   ],
   "note": "Refuted: larger sizes are accepted and reading panics. Sizes within the matrix are C133."
  },
  {
   "property": "C136",
   "status": "proved",
   "theorems": [
    "C136_records",
    "C136_total"
   ],
   "note": "For instances whose attributes are different, are found by GetAttribute and include the class attributes. Up to the records: the quoting of encoding/csv is not modelled."
  },
  {
   "property": "C137",
   "status": "partial",
   "theorems": [
    "C137_round_trip_partial",
    "C137_numeric_refuted",
    "C137_mixed_refuted",
    "C137_empty_refuted",
    "C137_no_rows_refuted",
    "C137_nan_refuted",
    "C137_classes_refuted"
   ],
   "note": "Proved for at least one row, names distinct after trimming, numbers written so that they look like numbers and parse, and non-empty trimmed categories of which the first does not look like a number. Refuted: categories that look like numbers come back as numbers or make the file unreadable; an empty category comes back as the first one; no rows panics; a column starting with NaN becomes categorical; of several class attributes one is left. The records written are assumed to be the records read (encoding/csv)."
  },
  {
   "property": "C138",
   "status": "proved",
   "theorems": [
    "C138_components"
   ],
   "note": "With exact arithmetic, for every decomposition of the centred data that meets the specification of the thin SVD (gonum's SVD is an oracle). Optimality over all orthonormal directions is proved (Ky Fan), not assumed."
  },
  {
   "property": "C139",
   "status": "proved",
   "theorems": [
    "C139_distance"
   ],
   "note": "With exact arithmetic and an SVD oracle."
  },
  {
   "property": "C140",
   "status": "partial",
   "theorems": [
    "C140_shift_partial",
    "C140_transform_refuted"
   ],
   "note": "Refuted: Transform does not subtract the mean of the fitted data, so other components come out (C140_transform_refuted). Proved: the difference is the same shift in all rows."
  },
  {
   "property": "C141",
   "status": "partial",
   "theorems": [
    "C141_fit_partial",
    "C141_unchanged_refuted"
   ],
   "note": "Refuted: Fit centres the caller's matrix in place. Proved: that is the only change, and fitting again changes nothing more."
  },
  {
   "property": "C142",
   "status": "partial",
   "theorems": [
    "C142_columns_partial",
    "C142_refused",
    "C142_features_refuted"
   ],
   "note": "Refuted for zero components and fewer rows than features, where the documented number of columns is the number of features. Proved for 1..features, and min(rows, features) otherwise; refused calls proved."
  },
  {
   "property": "C143",
   "status": "proved",
   "theorems": [
    "C143_range"
   ],
   "note": "With exact arithmetic; the normal distributions (gonum distmv) are an oracle, the random numbers any in [0,1)."
  },
  {
   "property": "C144",
   "status": "proved",
   "theorems": [
    "C144_one"
   ],
   "note": "With exact arithmetic; NewNormal is an oracle that accepts positive definite covariances."
  },
  {
   "property": "C145",
   "status": "proved",
   "theorems": [
    "C145_last_step"
   ],
   "note": "With exact arithmetic and NewNormal as an oracle; for runs that end (termination is not claimed)."
  },
  {
   "property": "C146",
   "status": "partial",
   "theorems": [
    "C146_refused",
    "C146_singular",
    "C146_square_refuted",
    "C146_empty_refuted"
   ],
   "note": "Refused calls proved. The rest is refuted: a component that gets no observation makes NewDense panic (C146_empty_refuted, all random numbers), and with as many observations as features the covariances are singular (C146_singular for all such data, C146_square_refuted)."
  },
  {
   "property": "C147",
   "status": "proved",
   "theorems": [
    "C147_trees",
    "C147_unbounded_refused"
   ],
   "note": "encoding/json and strconv as oracles (json_faithful, float_text); reading a file whose gzip stream was not closed is trusted"
  },
  {
   "property": "C148",
   "status": "proved",
   "theorems": [
    "C148_bayes"
   ],
   "note": "fitOn is the structure without rows that Fit keeps"
  },
  {
   "property": "C149",
   "status": "proved",
   "theorems": [
    "C149_neighbours"
   ],
   "note": "the number of neighbours is a natural number up to 2^53"
  },
  {
   "property": "C150",
   "status": "partial",
   "theorems": [
    "C150_ensembles_partial",
    "C150_trees_stored",
    "C150_bayes_stored",
    "C150_bags_stored",
    "C150_other_sizes",
    "C150_any_size_refuted"
   ],
   "note": "proved for loading into a model with as many members; refuted for a smaller forest, which silently keeps only the first trees (C150_any_size_refuted)"
  },
  {
   "property": "C151",
   "status": "partial",
   "theorems": [
    "C151_neighbours_in_bags",
    "C151_saved_in_bags_refuted"
   ],
   "note": "false of the code: KNN closes the file when saved (C151_saved_in_bags_refuted); trees, naive Bayes and bags are fine (C150_*_stored)"
  },
  {
   "property": "C152",
   "status": "partial",
   "theorems": [
    "C152_other_kinds_partial",
    "C152_neighbours_panic",
    "C152_refuted",
    "C152_version"
   ],
   "note": "proved for all loaders but KNN's, which panics on files of random trees, naive Bayes and random forests (C152_refuted)"
  },
  {
   "property": "C153",
   "status": "proved",
   "theorems": [
    "C153_training_set",
    "C153_rows"
   ],
   "note": "The problem is read back through the array as liblinear reads it."
  },
  {
   "property": "C154",
   "status": "partial",
   "theorems": [
    "C154_logistic",
    "C154_svc",
    "C154_fractions_refuted"
   ],
   "note": "Proved for whole numbers in the range of int, relative to the solver train_one (an oracle that returns one weight for each feature); refuted for fractional classes. The counting sort of the rows is written as concatenation."
  },
  {
   "property": "C155",
   "status": "partial",
   "theorems": [
    "C155_decision_partial",
    "C155_negative_ignored",
    "C155_decision_refuted"
   ],
   "note": "Proved for rows without negative or NaN values and without NaN scores; C155_negative_ignored holds for all rows; the full claim is refuted for every solver."
  },
  {
   "property": "C156",
   "status": "partial",
   "theorems": [
    "C156_rows_partial",
    "C156_columns_refuted"
   ],
   "note": "Proved with the columns in the order of the table to predict; refuted for columns in another order."
  },
  {
   "property": "C157",
   "status": "proved",
   "theorems": [
    "C157_known",
    "C157_known_logistic"
   ],
   "note": "For whole-number classes and any solver that returns one weight for each feature; fixed class weights or the default ones."
  },
  {
   "property": "C158",
   "status": "proved",
   "theorems": [
    "C158_one_vs_all",
    "C158_fit"
   ],
   "note": "Filters are keyed by attributes instead of pointers."
  },
  {
   "property": "C159",
   "status": "partial",
   "theorems": [
    "C159_one_vs_all_in_bags",
    "C159_saved_in_bags_refuted"
   ],
   "note": "False: C159_one_vs_all_in_bags proves that saving always fails, C159_saved_in_bags_refuted is a witness."
  },
  {
   "property": "C160",
   "status": "partial",
   "theorems": [
    "C160_linear_partial",
    "C160_predictions",
    "C160_digits_refuted",
    "C160_fitted"
   ],
   "note": "Exact when 16 digits suffice (C160_predictions), false in general (C160_digits_refuted, for all printf/scanf with 16 digits). Trusted: lib_text about fprintf/fscanf."
  },
  {
   "property": "C161",
   "status": "partial",
   "theorems": [
    "C161_refit_partial",
    "C161_refit_refuted"
   ],
   "note": "Holds with equal native parameters; refuted with others and for an empty struct."
  },
  {
   "property": "C162",
   "status": "partial",
   "theorems": [
    "C162_ensemble_partial",
    "C162_members",
    "C162_same",
    "C162_class_weights",
    "C162_weights_refuted"
   ],
   "note": "C162_same: exact when 16 digits suffice and the target has no class weights; C162_class_weights says what happens otherwise, C162_weights_refuted is a witness. Members are assumed to have been fitted."
  },
  {
   "property": "C163",
   "status": "proved",
   "theorems": [
    "C163_statistic",
    "C163_symmetric",
    "C163_nonneg",
    "C163_zero"
   ],
   "note": "exact arithmetic where the code rounds; the order of summation then does not matter"
  },
  {
   "property": "C164",
   "status": "partial",
   "theorems": [
    "C164_stops",
    "C164_keeps",
    "C164_two_classes",
    "C164_two_refuted",
    "C164_large",
    "C164_large_refuted",
    "C164_polynomial_partial",
    "C164_three_classes_partial"
   ],
   "note": "refuted for at most two and for four or more classes; the stopping rule is proved for every statistic and test; for three classes the percentile is bounded in exact arithmetic only"
  },
  {
   "property": "C165",
   "status": "partial",
   "theorems": [
    "C165_minimum_refuted",
    "C165_minimum_partial"
   ],
   "note": "refuted because of ties; proved when no merged table has ties"
  },
  {
   "property": "C166",
   "status": "partial",
   "theorems": [
    "C166_base",
    "C166_after",
    "C166_gain",
    "C166_float_base",
    "C166_float_after",
    "C166_decided",
    "C166_chosen",
    "C166_threshold_partial",
    "C166_constant",
    "C166_empty"
   ],
   "note": "Exact values, inequalities and error bounds are proved in full for attributes that are not numeric. For numeric attributes C166_threshold_partial assumes values far enough apart for middles to lie between neighbours (see C87 for what goes wrong otherwise). math.Log is any function within 4 ulps with log(+0) = -Inf; nearest_log shows there is one."
  },
  {
   "property": "C167",
   "status": "partial",
   "theorems": [
    "C167_order_partial",
    "C167_refuted"
   ],
   "note": "Refuted: C167_refuted shows a table where the code takes the attribute with the lower gain ratio, for every logarithm and order. C167_order_partial says what is true: the score ranks as information gain does."
  },
  {
   "property": "C168",
   "status": "partial",
   "theorems": [
    "C168_fits_partial",
    "C168_refuted"
   ],
   "note": "Refuted by C168_refuted for every rule generator and order. C168_fits_partial needs the label to be decided without any one attribute, rules that are not numeric, and a generator that gives a rule at each node."
  },
  {
   "property": "C169",
   "status": "partial",
   "theorems": [
    "C169_train",
    "C169_bins_partial",
    "C169_below",
    "C169_bins_refuted"
   ],
   "note": "C169_train and C169_below hold in general. The claim about bins is false for ranges of a few denormals and for ranges that overflow (C169_bins_refuted) and proved for ranges from 2^-900 to 2^1023 and 1 to 10^9 bins (C169_bins_partial). The result of converting an out-of-range number to int, which Go leaves open, is a parameter."
  },
  {
   "property": "C170",
   "status": "partial",
   "theorems": [
    "C170_label_partial",
    "C170_edge_partial",
    "C170_label_refuted",
    "C170_beyond_refuted"
   ],
   "note": "False when two labels agree (C170_label_refuted) and for numbers beyond the training data (C170_beyond_refuted); proved when all labels differ and the number lies in a sane range (C170_label_partial). Formatting of numbers is a parameter."
  },
  {
   "property": "C171",
   "status": "partial",
   "theorems": [
    "C171_accepts",
    "C171_exactly",
    "C171_equal_refuted"
   ],
   "note": "False for attributes that equal a column without being the table's own (C171_equal_refuted; in the model, which compares attributes by value and not by pointer, they differ in precision). C171_accepts and C171_exactly hold for all histories."
  },
  {
   "property": "C172",
   "status": "partial",
   "theorems": [
    "C172_fit_partial",
    "C172_collapse",
    "C172_collapse_refuted",
    "C172_whole_refuted",
    "C172_empty_refuted",
    "C172_order_refuted"
   ],
   "note": "Proved for dense data whenever Fit succeeds and some row is kept; refuted for shares that hold back no row or all rows, and for the order of the caller's data. Success of Fit with rows held back is a hypothesis."
  },
  {
   "property": "C173",
   "status": "partial",
   "theorems": [
    "C173_counts_partial",
    "C173_code",
    "C173_code_refuted"
   ],
   "note": "Holds for training rows already in ascending order; false for the code of a row at the lower boundary of an interval, with a witness."
  },
  {
   "property": "C174",
   "status": "partial",
   "theorems": [
    "C174_label_partial",
    "C174_repeat",
    "C174_label_refuted"
   ],
   "note": "Holds when all boundaries have different texts; otherwise refuted, in general and with a witness."
  },
  {
   "property": "C175",
   "status": "partial",
   "theorems": [
    "C175_float_partial",
    "C175_binary_partial",
    "C175_float_one_hot_partial",
    "C175_binary_one_hot_partial",
    "C175_names_refuted"
   ],
   "note": "Holds when every attribute is converted and all new names differ; otherwise refuted with a witness."
  },
  {
   "property": "C176",
   "status": "partial",
   "theorems": [
    "C176_columns",
    "C176_transform",
    "C176_order",
    "C176_again_refuted"
   ],
   "note": "Conversion is unchanged; the columns are doubled, shown in general and with a witness."
  },
  {
   "property": "C177",
   "status": "partial",
   "theorems": [
    "C177_split_partial",
    "C177_threshold_partial",
    "C177_refuted"
   ],
   "note": "False of the code: C177_refuted. C177_split_partial says which rows a node holds instead."
  },
  {
   "property": "C178",
   "status": "partial",
   "theorems": [
    "C178_estimates_partial",
    "C178_refuted"
   ],
   "note": "False of the code: C178_refuted. C178_estimates_partial says what is estimated instead."
  }
 ]
}