{
 "claims": [
  {
   "property": "C01",
   "status": "proved",
   "theorems": [
    "C01_index_view_selects",
    "C01_rows"
   ],
   "note": ""
  },
  {
   "property": "C02",
   "status": "proved",
   "theorems": [
    "C02_slice_view_rows",
    "C02_representation_irrelevant"
   ],
   "note": ""
  },
  {
   "property": "C03",
   "status": "partial",
   "theorems": [
    "C03_slice_view_reversed_partial",
    "C03_symmetric_bounds",
    "C03_slice_view_reversed_refuted"
   ],
   "note": "The documented statement is false of the code (C03_slice_view_reversed_refuted): the bounds are applied to the reversed dataframe. Proved: the exact behaviour, and the documented statement for bounds symmetric about the middle."
  },
  {
   "property": "C04",
   "status": "proved",
   "theorems": [
    "C04_mask_view_rows",
    "C04_mask_view_is_index_view",
    "C04_true_positions"
   ],
   "note": ""
  },
  {
   "property": "C05",
   "status": "proved",
   "theorems": [
    "C05_column_view_projects"
   ],
   "note": ""
  },
  {
   "property": "C06",
   "status": "proved",
   "theorems": [
    "C06_reverse_view_flips"
   ],
   "note": ""
  },
  {
   "property": "C07",
   "status": "proved",
   "theorems": [
    "C07_shuffle_view_permutes",
    "C07_every_permutation"
   ],
   "note": ""
  },
  {
   "property": "C08",
   "status": "proved",
   "theorems": [
    "C08_sample_view_distinct"
   ],
   "note": ""
  },
  {
   "property": "C09",
   "status": "proved",
   "theorems": [
    "C09_split_view_batches"
   ],
   "note": ""
  },
  {
   "property": "C10",
   "status": "partial",
   "theorems": [
    "C10_split_n_view_parts_partial",
    "C10_split_n_view_empty_refuted",
    "C10_padding_has_no_columns_refuted"
   ],
   "note": "False for a dataframe without rows and n > 1 (one part is returned) and padding parts have no columns; both refuted by witness. Proved under the guard num_rows > 0 or n <= 1."
  },
  {
   "property": "C11",
   "status": "proved",
   "theorems": [
    "C11_train_test_partition"
   ],
   "note": "NaN ratios and more than 2^53 rows are excluded by hypothesis."
  },
  {
   "property": "C12",
   "status": "partial",
   "theorems": [
    "C12_sorted_view_sorts",
    "C12_sorted_view_big_ints_refuted"
   ],
   "note": "Proved for every sorting function satisfying asort_ok (Spec.v), for bools, NaN-free floats and ints up to 2^53 in absolute value; beyond that refuted."
  },
  {
   "property": "C13",
   "status": "proved",
   "theorems": [
    "C13_top_view_extremes"
   ],
   "note": ""
  },
  {
   "property": "C14",
   "status": "proved",
   "theorems": [
    "C14_reset_index_view"
   ],
   "note": ""
  },
  {
   "property": "C15",
   "status": "proved",
   "theorems": [
    "C15_get_reads_the_table",
    "C15_write_seen_where_shared"
   ],
   "note": ""
  },
  {
   "property": "C16",
   "status": "partial",
   "theorems": [
    "C16_detached_view_isolates",
    "C16_other_columns_shared",
    "C16_other_columns_refuted"
   ],
   "note": "Isolation of the detached columns is proved without restriction. That the other columns still share their data is proved unless as many names are given as there are columns; refuted for repeated names (Unshare compares the counts)."
  },
  {
   "property": "C17",
   "status": "proved",
   "theorems": [
    "C17_copy_equal_independent"
   ],
   "note": ""
  },
  {
   "property": "C18",
   "status": "partial",
   "theorems": [
    "C18_view_structure_partial",
    "C18_drop_refuted",
    "C18_alloc_strings_refuted",
    "C18_rename_string_refuted"
   ],
   "note": "Proved for every sequence of renames of non-string columns, allocations, creations by Overwrite*, conversions and Unshare. Dropping a column, AllocStrings and renaming a string column do change the original: refuted by witnesses."
  },
  {
   "property": "C19",
   "status": "partial",
   "theorems": [
    "C19_unshare_private_partial",
    "C19_after_shallow_copy",
    "C19_unshare_refuted"
   ],
   "note": "Proved when the column is recorded as shared (in particular right after ShallowCopy). Refuted in general: a ColumnView of the copy aliases the record of shared columns."
  },
  {
   "property": "C20",
   "status": "partial",
   "theorems": [
    "C20_history_partial",
    "C20_step",
    "C20_unguarded_refuted"
   ],
   "note": "Proved for every history of operations respecting op_guard (P_World.v): slices within bounds, known and typed columns, no allocation in a column-less dataframe, aligned inputs for ColumnConcatView, no renaming onto itself. Without the guards refuted by four witnesses."
  },
  {
   "property": "C21",
   "status": "proved",
   "theorems": [
    "C21_are_indices_altered"
   ],
   "note": ""
  },
  {
   "property": "C22",
   "status": "partial",
   "theorems": [
    "C22_overwrite_existing",
    "C22_overwrite_missing",
    "C22_overwrite_missing_refuted"
   ],
   "note": "Proved for existing columns, and for new columns of dataframes that have at least one column or no rows. Refuted for a column-less dataframe with rows (EmptyDataFrame)."
  },
  {
   "property": "C23",
   "status": "proved",
   "theorems": [
    "C23_zero_mask",
    "C23_empty_mask"
   ],
   "note": ""
  },
  {
   "property": "C24",
   "status": "partial",
   "theorems": [
    "C24_panics",
    "C24_all_columns",
    "C24_hash_view_partial",
    "C24_hashed_columns",
    "C24_hash_range",
    "C24_all_columns_refuted"
   ],
   "note": "Exact on all well-formed inputs: C24_panics says when it panics, C24_hash_view_partial what it returns if some column is not hashed, C24_all_columns what happens if every column is (false as stated: the hashes are written into the original dataframe and the object columns stay; C24_all_columns_refuted). Independence of the worker schedule is C42."
  },
  {
   "property": "C25",
   "status": "proved",
   "theorems": [
    "C25_label_bijection"
   ],
   "note": ""
  },
  {
   "property": "C26",
   "status": "proved",
   "theorems": [
    "C26_copy_values"
   ],
   "note": ""
  },
  {
   "property": "C27",
   "status": "proved",
   "theorems": [
    "C27_iterator",
    "C27_rows"
   ],
   "note": "Covers every number of rows, caller edits of delivered rows, Reset with and without the check; the panic condition of the constructor is exact. float32 rounding is part of the model (Flocq-free SpecFloat rounding)."
  },
  {
   "property": "C28",
   "status": "partial",
   "theorems": [
    "C28_first_matrix",
    "C28_later_matrices_partial",
    "C28_longer_dataframe_refuted",
    "C28_longer_dataframe_panics_refuted",
    "C28_missing_column_refuted"
   ],
   "note": "The first call is exact. Later calls are proved right when no dataframe is longer than the first, or with one column. Refuted by witness otherwise: the growth test counts rows instead of cells, so cells are silently lost or the call panics; a dataframe lacking a float column silently gets the previous values."
  },
  {
   "property": "C29",
   "status": "proved",
   "theorems": [
    "C29_vec_dense"
   ],
   "note": ""
  },
  {
   "property": "C30",
   "status": "partial",
   "theorems": [
    "C30_row_concat_partial",
    "C30_error_columns_refuted"
   ],
   "note": "Proved: contents, fresh storage in both directions, error exactly when a dataframe lacks a column of the first one. Refuted: a later dataframe with extra columns is accepted and its columns dropped."
  },
  {
   "property": "C31",
   "status": "partial",
   "theorems": [
    "C31_concat_view_partial",
    "C31_rows_refuted",
    "C31_string_marks_refuted",
    "C31_hash_collision_refuted"
   ],
   "note": "Proved for inputs with the same row indices. Refuted: different row counts accepted without index views; string marks lost when the first dataframe has none; index lists with the same hash accepted and misaligned."
  },
  {
   "property": "C32",
   "status": "proved",
   "theorems": [
    "C32_copy_concat",
    "C32_beside_columns"
   ],
   "note": ""
  },
  {
   "property": "C33",
   "status": "partial",
   "theorems": [
    "C33_smart_concat_partial",
    "C33_smart_concat_refuted"
   ],
   "note": "Proved when equal hashes mean equal index lists and, without index views, row counts agree. Refuted by a hash collision."
  },
  {
   "property": "C34",
   "status": "partial",
   "theorems": [
    "C34_merge_rows_partial",
    "C34_string_columns_refuted"
   ],
   "note": "Columns and fresh storage proved; string marks are dropped (refuted)."
  },
  {
   "property": "C35",
   "status": "proved",
   "theorems": [
    "C35_header_algebra",
    "C35_name_list",
    "C35_dataframe_headers",
    "C35_headers_are_detached"
   ],
   "note": "Headers are references to sets in the heap; aliasing between headers is part of the model."
  },
  {
   "property": "C36",
   "status": "proved",
   "theorems": [
    "C36_to_dataframe"
   ],
   "note": ""
  },
  {
   "property": "C37",
   "status": "partial",
   "theorems": [
    "C37_builder_partial",
    "C37_aliased_set_refuted"
   ],
   "note": "Proved when every slice passed to Set* is used for one column. Refuted for one slice with spare capacity set on two columns."
  },
  {
   "property": "C38",
   "status": "partial",
   "theorems": [
    "C38_int_to_floats",
    "C38_conversion_columns",
    "C38_bool_to_floats_partial",
    "C38_bool_to_floats_refuted"
   ],
   "note": "IntToFloats proved. BoolToFloats: values proved, but the bool column stays (refuted)."
  },
  {
   "property": "C39",
   "status": "partial",
   "theorems": [
    "C39_rename_moves_partial",
    "C39_rename_columns",
    "C39_rename_same_refuted"
   ],
   "note": "Proved for different names. Rename(a,a) deletes the column (refuted)."
  },
  {
   "property": "C40",
   "status": "partial",
   "theorems": [
    "C40_encode",
    "C40_repeated_rows_refuted",
    "C40_lossy_refuted",
    "C40_parent_refuted"
   ],
   "note": "Proved for all codecs, orders and failure points when no visible string cell shares storage and conversions can be undone. Without these two hypotheses it is refuted: repeated rows are encoded several times, a lossy decoder leaves changes behind an error; a view's Encode re-encodes the parent's strings without updating the parent's encoding."
  },
  {
   "property": "C41",
   "status": "partial",
   "theorems": [
    "C41_create_queue",
    "C41_every_key_once_partial",
    "C41_empty_key_blocks",
    "C41_no_worker_blocks",
    "C41_deadlock_refuted"
   ],
   "note": "Proved over the transition system of M_Pool.v for every interleaving, with the hypotheses that no key is the empty string and that there is at least one worker. Both hypotheses are necessary: an empty key, or no worker, is proved to block every execution, and a concrete deadlock is given."
  },
  {
   "property": "C42",
   "status": "partial",
   "theorems": [
    "C42_shared_storage_refuted",
    "C42_schedules_agree_partial",
    "C42_hash_strings_view_partial",
    "C50_fit",
    "C53_all_schedules",
    "C54_fit",
    "C55_fit_schedules",
    "C55_transform_schedules",
    "C44_from_csv",
    "C84_files_partial"
   ],
   "note": "General theorem for all jobs whose footprints do not overlap, applied to HashStringsView (C42), Scaler (C50_fit, C53_all_schedules), FloatImputer (C54_fit), OneHotEncoder (C55_fit_schedules, C55_transform_schedules), FromCSV (C44_from_csv) and FromCSVFilePattern (C84_files_partial). Refuted for columns that share storage: two complete executions of Scaler.TransformInplace end differently."
  },
  {
   "property": "C43",
   "status": "partial",
   "theorems": [
    "C43_pattern_workers_partial",
    "C43_hangs",
    "C43_at_least_one_worker_refuted"
   ],
   "note": "Exact condition: with n files there is a worker iff cpu < n(n+1). The property itself is refuted (two files, six CPUs), and it is proved that such a call never returns."
  },
  {
   "property": "C44",
   "status": "proved",
   "theorems": [
    "C44_inference",
    "C44_from_csv",
    "C44_empty_name_hangs"
   ],
   "note": "Inference: all cells, markers, headers. C44_from_csv: FromCSV + ToDataFrame for every pool execution and map order; hypotheses: names not empty (else C44_empty_name_hangs), records at least as wide as the header (else the worker panics, C44_inference). From text: C86. ParseFloat is a parameter."
  },
  {
   "property": "C45",
   "status": "partial",
   "theorems": [
    "C45_kinds",
    "C45_int_as_float",
    "C45_binary_alone",
    "C45_bool_words",
    "C45_binary_as_float_refuted",
    "C45_bool_as_float_refuted"
   ],
   "note": "C45_kinds gives the type for all option combinations. False as stated: BinaryAsFloat alone makes 0/1 columns int, BoolAsFloat leaves 0/1 columns bool and makes true/false columns strings."
  },
  {
   "property": "C46",
   "status": "partial",
   "theorems": [
    "C46_writes_rows_partial",
    "C46_failing_writer_partial",
    "C46_unordered_view",
    "C46_rows_once_refuted",
    "C46_no_rows",
    "C46_error_lost_refuted"
   ],
   "note": "Proved for dataframes that are no index views or with MaintainOrder. Otherwise false: sortIfNeeded replaces the indices by zeros, so one storage row is written NumRows times (C46_unordered_view for all such views). With no rows, write errors are not reported."
  },
  {
   "property": "C47",
   "status": "partial",
   "theorems": [
    "C47_splits_rows_partial",
    "C47_no_rows",
    "C47_header_refuted",
    "C47_empty_refuted"
   ],
   "note": "Proved under the conditions of C46 if there are rows or at most one writer. False without rows and two writers or more (panic), and writers beyond the parts get an empty line instead of a header."
  },
  {
   "property": "C48",
   "status": "partial",
   "theorems": [
    "C48_paths_partial",
    "C48_empty_dataframe_refuted"
   ],
   "note": "Proved if ActualMaxCPU is at least 1; false for dataframes with CPU limit 0 (made by EmptyDataFrame): no file is written."
  },
  {
   "property": "C49",
   "status": "partial",
   "theorems": [
    "C49_round_trip",
    "C49_ints_refuted",
    "C49_floats_refuted",
    "C49_strings_refuted",
    "C49_text"
   ],
   "note": "Exact characterisation of the columns that survive (Spec_Csv.survives), under stated conditions on names, numbers and the file; false as stated: 0/1 ints, integral floats, numeric strings change type. C49_text: the same through the bytes of the file, for all delimiters and reader options."
  },
  {
   "property": "C50",
   "status": "proved",
   "theorems": [
    "C50_fit",
    "C50_standardised",
    "C50_centered",
    "C50_scaled"
   ],
   "note": "Fit for every dataframe, iteration order and worker schedule (float64); the effect on the column in exact real arithmetic with missing values, by the same code over a record of operations. Not proved: float64 rounding error bounds. Infinite values excluded."
  },
  {
   "property": "C51",
   "status": "partial",
   "theorems": [
    "C51_minmax_partial",
    "C51_minmax_refuted"
   ],
   "note": "False: the scale is max-min, not its inverse, so the range becomes [0,(max-min)^2]; proved that the claim holds iff max-min = 1."
  },
  {
   "property": "C52",
   "status": "partial",
   "theorems": [
    "C52_inverse",
    "C52_same_columns",
    "C52_on_dataframes",
    "C52_constant_refuted",
    "C52_rounding_refuted"
   ],
   "note": "Proved in exact arithmetic for finite shift and finite non-zero scale; on dataframes as composition in float64. False for constant columns under MinMax (scale 0 gives NaN) and bit for bit in float64."
  },
  {
   "property": "C53",
   "status": "partial",
   "theorems": [
    "C53_transform_inplace",
    "C53_each_value_once",
    "C53_all_schedules",
    "C53_repeated_refuted"
   ],
   "note": "General formula with multiplicities for all dataframes seeing the cells; once per value without repeated rows and shared cells, for any schedule. False for views with repeated rows."
  },
  {
   "property": "C54",
   "status": "partial",
   "theorems": [
    "C54_fit",
    "C54_transform",
    "C54_no_nan_partial",
    "C54_mean_exact",
    "C54_all_missing_refuted"
   ],
   "note": "Proved for policies Zero and One, and for Mean if the training column has a non-missing value and only finite ones and at most 2^53 rows. False for all-missing columns and columns with both infinities."
  },
  {
   "property": "C55",
   "status": "partial",
   "theorems": [
    "C55_fit",
    "C55_fit_schedules",
    "C55_transform",
    "C55_one_flag",
    "C55_transform_schedules",
    "C55_name_clash_refuted",
    "C55_original_refuted"
   ],
   "note": "Fit and TransformView for every dataframe, policy, iteration order and worker schedule, provided dropping the categorical columns by name is safe (keep, or: some new column, no new column named like a categorical column, no categorical column also marked as string). Outside these conditions false (two refutations)."
  },
  {
   "property": "C56",
   "status": "proved",
   "theorems": [
    "C56_names",
    "C56_fitted"
   ],
   "note": "All column names and indices."
  },
  {
   "property": "C57",
   "status": "partial",
   "theorems": [
    "C57_error",
    "C57_shared_partial",
    "C57_fit_partial",
    "C57_shared_refuted",
    "C57_fit_refuted"
   ],
   "note": "ReturnError as claimed. Shared: one separate category if missing values were seen or always separate; otherwise false. Exact condition under which Fit panics; so \"Fit always succeeds\" is false, e.g. {Missing: Shared, Unknown: ReturnError}."
  },
  {
   "property": "C58",
   "status": "partial",
   "theorems": [
    "C58_fit",
    "C58_transform",
    "C58_fit_transform_partial",
    "C58_fit_transform_panics",
    "C58_excluded_partial",
    "C58_fit_transform_refuted",
    "C58_excluded_refuted",
    "C58_refit_refuted",
    "C58_original_refuted"
   ],
   "note": "Proved for every dataframe with uniquely named columns, some column that is not a string, and no categorical column named like a generated one, all options and all iteration orders: C58_fit says what is trained, that the dataframe stays as it is, and that Fit panics exactly for empty data with categorical columns; C58_transform says what TransformView makes of any dataframe with the required columns, rows shown several times being scaled several times; C58_fit_transform_partial is the equality when both Imputing and Scaling are set (or neither and there is nothing categorical). It is false otherwise: C58_fit_transform_panics shows that FitTransform then always panics on the nil imputer or scaler. C58_excluded_partial: unused columns are unchanged; refuted are that Exclude is honoured when all float columns or string columns are excluded, that a preprocessor can be trained again, and that Fit leaves a dataframe with nothing but strings alone. Not modelled: JSON serialisation, Verbose logging. Fit and Transform of the parts are used sequentially here; their schedules are treated in C50-C57."
  },
  {
   "property": "C59",
   "status": "partial",
   "theorems": [
    "C59_predict_partial",
    "C59_distinct_rows_partial",
    "C59_repeated_refuted",
    "C59_original_refuted",
    "C59_result_name_refuted"
   ],
   "note": "For every well-formed dataframe, model with a fitted target scaler and order of the inner product: exact panic condition and exact result, if the input has no float column _target and the result is not called _target (both refuted otherwise). Rows that occur several times are scaled back several times (refuted); with distinct rows one prediction per row (C59_distinct_rows_partial). Inner products are parameters, so the theorems hold for every summation order of the BLAS library."
  },
  {
   "property": "C60",
   "status": "partial",
   "theorems": [
    "C60_fit_partial",
    "C60_missing_target",
    "C60_step",
    "C60_feature_name_refuted",
    "C60_target_name_refuted",
    "C60_exact_step",
    "C60_gradient"
   ],
   "note": "C60_fit_partial: for every dataframe without a column _target (refuted otherwise), exact panic condition, fitted scaler, features, and the weights are those of the specified training steps over a partition of the rows into batches in each epoch, in float64, for every inner product; df unchanged. C60_exact_step, C60_gradient: in exact arithmetic the step is the gradient step. Training time and Verbose output are not modelled."
  },
  {
   "property": "C61",
   "status": "partial",
   "theorems": [
    "C61_on_dataframes",
    "C61_documented_means",
    "C61_float64",
    "C61_zero_refuted"
   ],
   "note": "Exact arithmetic: as claimed. float64: symmetric bit for bit, never negative; zero also for different columns by underflow (refuted); NaN without rows. Also panics if a column is missing (evaluate_spec)."
  },
  {
   "property": "C62",
   "status": "partial",
   "theorems": [
    "C62_split_string_slice",
    "C62_empty_groups_refuted",
    "C62_group_indexer"
   ],
   "note": "Proved for all slices and group counts; a negative count panics. Refuted: although there are enough elements, trailing groups can be empty."
  },
  {
   "property": "C63",
   "status": "partial",
   "theorems": [
    "C63_make_range",
    "C63_make_range_partial",
    "C63_make_range_refuted"
   ],
   "note": "The exact behaviour is proved for all arguments (C63_make_range). The documented progression holds when the step is positive and divides the range; it panics otherwise, and counting down yields zeros."
  },
  {
   "property": "C64",
   "status": "partial",
   "theorems": [
    "C64_set_max_cpu",
    "C64_history_partial",
    "C64_inherited",
    "C64_empty_dataframe_refuted"
   ],
   "note": "Proved for all histories in which EmptyDataFrame is given 1..NumCPU; EmptyDataFrame stores 0 or negative numbers as they are (refuted by witness)."
  },
  {
   "property": "C65",
   "status": "partial",
   "theorems": [
    "C65_short_names",
    "C65_display_ambiguous_refuted"
   ],
   "note": "The shorthands themselves are proved unambiguous for every iteration order. The names PrintRecords shows can be ambiguous, because a column whose prefixes are all taken is shown under its full name (refuted by witness)."
  },
  {
   "property": "C66",
   "status": "partial",
   "theorems": [
    "C66_slice_view_panics_partial",
    "C66_within_bounds",
    "C66_negative_refuted",
    "C66_slice_view_out_of_range_refuted",
    "C66_slice_view_resurrects_rows_refuted"
   ],
   "note": "Exact panic condition for all bounds: the claim holds for reversed slices and, within the bounds, for all; otherwise bounds are only compared with capacities. Refuted by witnesses: hidden rows come back, and without columns negative bounds are accepted."
  },
  {
   "property": "C67",
   "status": "partial",
   "theorems": [
    "C67_copies_partial",
    "C67_copies_keep_encoding_refuted"
   ],
   "note": "False of the code: both copies have no encoding (refuted by witness). C67_copies_partial: all the rest is kept, so the claim holds exactly for dataframes without encoding."
  },
  {
   "property": "C68",
   "status": "proved",
   "theorems": [
    "C68_index_of_string"
   ],
   "note": ""
  },
  {
   "property": "C69",
   "status": "partial",
   "theorems": [
    "C69_accepted_columns",
    "C69_object_columns_refuted"
   ],
   "note": "Exact set of accepted column lists proved; the documented behaviour is refuted: a non-numeric column makes the constructor panic."
  },
  {
   "property": "C70",
   "status": "proved",
   "theorems": [
    "C70_merge_columns"
   ],
   "note": "For all lists of RawData."
  },
  {
   "property": "C71",
   "status": "partial",
   "theorems": [
    "C71_pattern_partial",
    "C71_mixed_types_refuted",
    "C71_string_columns_refuted"
   ],
   "note": "Columns proved for any arrival order; ToDataFrame proved if all files have the same columns and types. False in general: types are inferred per file, so ToDataFrame may panic; string columns and the encoding are forgotten."
  },
  {
   "property": "C72",
   "status": "partial",
   "theorems": [
    "C72_float64_partial",
    "C72_constant_partial",
    "C72_constant_refuted"
   ],
   "note": "True in exact arithmetic, and in float64 if the constant is m 2^e with |m| times the number of values at most 2^53 (all small integers); false in float64 otherwise (three times 0.1 becomes -1)."
  },
  {
   "property": "C73",
   "status": "partial",
   "theorems": [
    "C73_hash_encoder_partial"
   ],
   "note": "Proved if the dataframe has a column that is not hashed; otherwise HashStringsView fails as in C24_all_columns_refuted."
  },
  {
   "property": "C74",
   "status": "partial",
   "theorems": [
    "C74_columns_partial",
    "C74_columns_refuted"
   ],
   "note": "C74_columns_partial: for a fitted preprocessor TransformedColumns lists exactly the scaled float columns and the string columns if imputing is on and there were strings, and panics otherwise; the panic is exhibited by C74_columns_refuted."
  },
  {
   "property": "C75",
   "status": "proved",
   "theorems": [
    "C75_descent",
    "C75_minimiser"
   ],
   "note": "Exact arithmetic; for every inner product that is exact on reals."
  },
  {
   "property": "C76",
   "status": "proved",
   "theorems": [
    "C76_consistent"
   ],
   "note": "Exact arithmetic; batches as Fit makes them (C60_fit_partial)."
  },
  {
   "property": "C77",
   "status": "proved",
   "theorems": [
    "C77_convergence"
   ],
   "note": "Exact arithmetic; batches as Fit makes them (C60_fit_partial)."
  },
  {
   "property": "C78",
   "status": "partial",
   "theorems": [
    "C78_defaults_refuted"
   ],
   "note": "False: no defaults are applied. Epochs 0 or LR 0 keep the random weights, BatchSize 0 panics."
  },
  {
   "property": "C79",
   "status": "proved",
   "theorems": [
    "C79_drop"
   ],
   "note": ""
  },
  {
   "property": "C80",
   "status": "partial",
   "theorems": [
    "C80_alloc_partial",
    "C80_alloc_strings_partial",
    "C80_no_columns_refuted"
   ],
   "note": "Proved if the dataframe has a column or no rows; otherwise the new column is empty (refuted)."
  },
  {
   "property": "C81",
   "status": "proved",
   "theorems": [
    "C81_head",
    "C81_panics"
   ],
   "note": ""
  },
  {
   "property": "C82",
   "status": "partial",
   "theorems": [
    "C82_any_names",
    "C82_literal",
    "C82_verb",
    "C82_end",
    "C82_doubled",
    "C82_same_label_refuted",
    "C82_records_partial",
    "C82_percent_refuted",
    "C82_same_name_refuted"
   ],
   "note": "Proved if names and shorthands have no percent sign, with the value of the float, object, int or bool column of that name, in this order of preference. For all names C82_any_names: the label is what fmt.Printf makes of the name as a format without arguments (M_Fmt, after Go 1.15), described by C82_literal, C82_verb, C82_end, C82_doubled; argument indices in brackets and stars are modelled but not described by a theorem. False as stated: such names are mangled, two columns can have the same label (C82_same_label_refuted), and of two columns with the same name one is not printed."
  },
  {
   "property": "C83",
   "status": "proved",
   "theorems": [
    "C83_check",
    "C83_wf"
   ],
   "note": ""
  },
  {
   "property": "C84",
   "status": "partial",
   "theorems": [
    "C84_pattern_paths",
    "C84_files_partial"
   ],
   "note": "Proved if there is a worker (otherwise C43_hangs), the paths are distinct and not empty, and records are at least as long as the header (otherwise FromCSV panics). What the files contain after tokenising is a parameter."
  },
  {
   "property": "C85",
   "status": "partial",
   "theorems": [
    "C85_read_back_partial",
    "C85_identity",
    "C85_unchanged_fields",
    "C85_line_end_refuted",
    "C85_blank_refuted",
    "C85_comment_refuted",
    "C85_comment_lines_refuted",
    "C85_blank_comma_refuted",
    "C85_last_line",
    "C85_given_header",
    "C85_last_line_lazy_refuted",
    "C85_blank_comma",
    "C85_comment"
   ],
   "note": "Byte-level model of encoding/csv (M_CsvText). Proved: what exactly comes back, for all records, delimiters and options, and (C85_identity) exactly when that is what was written. Also: the last line needs no line end (C85_last_line; with LazyQuotes only without quotes) and a given header is like a first line (C85_given_header). With a blank delimiter and TrimLeadingSpace the empty fields are lost, except a last one (C85_blank_comma); comment-like records over several lines are read from their second line on (C85_comment). False as stated: blank and comment-like records are lost, CR LF in a field becomes LF."
  },
  {
   "property": "C86",
   "status": "proved",
   "theorems": [
    "C86_returns",
    "C86_short_record_panics",
    "C86_unnamed_column_hangs"
   ],
   "note": "For every text (any bytes, single-byte delimiters) and every pool execution; the two failures (Header longer than the records: panic; unnamed column: deadlock) are shown by C86_short_record_panics and C86_unnamed_column_hangs."
  },
  {
   "property": "C87",
   "status": "partial",
   "theorems": [
    "C87_fit_maps",
    "C87_no_race",
    "C87_hash_strings_view",
    "C87_fit",
    "C87_scale",
    "C87_one_hot",
    "C87_shared_storage_refuted"
   ],
   "note": "For every schedule, worker count and queue order: two workers are never about to access the same location with one of them writing. Proved in general from disjoint footprints and for every pool of the library that writes to columns, and for the maps that OneHotEncoder.Fit fills (C87_fit_maps, a map being one location). Workers of FromCSV write only to their own shells; sends and receives on the results channel are synchronisation, not accesses. False (C87_shared_storage_refuted) if two columns of the frame handed to Scaler.TransformInplace have the same storage."
  },
  {
   "property": "C88",
   "status": "partial",
   "theorems": [
    "C88_text",
    "C88_marshal",
    "C88_scaler",
    "C88_imputer",
    "C88_encoders",
    "C88_linreg",
    "C88_auto",
    "C88_fitted",
    "C88_options_refuted",
    "C88_missing_refuted",
    "C88_names_refuted"
   ],
   "note": "Byte-level model of encoding/json (M_Json). Proved: what is parsed back from any written value, exactly when Marshal fails, and that reloaded models equal the originals apart from the options of Scaler, FloatImputer and AutoPreprocessor, which are not exported; end to end for AutoPreprocessor.Fit of any dataframe (C88_fitted). The hypothesis exact_numbers, that ParseFloat reads what AppendFloat writes, is proved of Go's number formats in C91_json_exact. Refuted without the conditions: options lost on refitting, all-missing columns (NaN) cannot be marshalled, names that are not UTF-8 are changed and collide."
  },
  {
   "property": "C89",
   "status": "partial",
   "theorems": [
    "C89_summary",
    "C89_total_refuted"
   ],
   "note": "The text is proved line by line (C89_summary). False in one point: for a row-wise view the number after the slash is the length of the mask buffer, which grows with the view (refuted by witness). The structure ID is a parameter."
  },
  {
   "property": "C90",
   "status": "partial",
   "theorems": [
    "C90_example_partial",
    "C90_flags",
    "C90_only_target_refuted",
    "C90_target_name_refuted"
   ],
   "note": "C90_example_partial composes the theorems on shuffling, splitting, the preprocessor, training, JSON, prediction and MAE into one about the whole of main between reading the file and writing the result; exact condition for panics. Guards: another float column than the target exists, neither the target nor a column has one of the names the code uses (_target, y_pred), and the flags -imputing and -scaling are equal (otherwise it panics: C90_flags). Refuted without: the target as only float column (the error is that of the scaled target), a target called y_pred (error 0). Reading and writing CSV is not part of it (C44-C49, C85, C86)."
  },
  {
   "property": "C91",
   "status": "proved",
   "theorems": [
    "C91_round_trip",
    "C91_parse",
    "C91_syntax",
    "C91_written",
    "C91_json",
    "C91_json_exact",
    "C91_ints",
    "C91_numbers",
    "C91_csv_column",
    "C91_long_exponent_refuted",
    "C91_underscores",
    "C91_ties"
   ],
   "note": "Concrete model of strconv.ParseFloat, FormatFloat(x, f, -1, 64) and the float encoder of encoding/json (Go 1.15) with integer arithmetic instead of strconv's fast paths. Round trip for all float64; correct rounding of all decimal texts; shortest and closest digits, at most 17. It discharges the assumptions exact_numbers (C88, C90), ints_are_floats (C45) and numbers_ok (C49). Exponents from 100000 on are cut by the code (C91_long_exponent_refuted). Of two equally close shortest decimals the even one is written (C91_ties), and underscores are read over exactly between digits (C91_underscores). Hexadecimal numbers are modelled; the rounding theorem is about decimal texts."
  },
  {
   "property": "C92",
   "status": "proved",
   "theorems": [
    "C92_program",
    "C92_reads"
   ],
   "note": "C92_program composes C86 (tokenising and the worker pool), C91 (strconv), C45/C44 (column types) and C90 into one theorem about main from the bytes of the file to the MAE, with no parameter left for strconv and encoding/json; C92_reads: the readers can always go on until all columns are read. Guards as in C90 (another numeric column, names that do not clash, equal flags), stated on the cells of the file. Printing is not included; the final writing and reading of the test set (lines 133-150) is C96."
  },
  {
   "property": "C93",
   "status": "partial",
   "theorems": [
    "C93_scalars",
    "C93_slices",
    "C93_unordered",
    "C93_float",
    "C93_tolerance",
    "C93_float_slice",
    "C93_nan_refuted",
    "C93_repeated_refuted",
    "C93_float_slice_refuted",
    "C93_empty_refuted"
   ],
   "note": "Exact meaning of all assertions. For floats: the interval accepted, which contains all numbers at distance up to 1/100 and is wider by rounding errors only. False as stated in four points: NaN is accepted for any number, repetitions are ignored without order, AssertFloatSliceEquals returns false without failing the test when all elements are near, and an empty slice is not equal to nil."
  },
  {
   "property": "C94",
   "status": "partial",
   "theorems": [
    "C94_files_partial",
    "C94_pieces",
    "C94_unordered_view",
    "C94_view_refuted"
   ],
   "note": "C94_files_partial: bytes of every file, all other files untouched, exact condition for the error and for panics (object columns whose values cannot be written), and what is lost when a file cannot be created. Guard: no index view, or MaintainOrder. Without it (C94_unordered_view, C94_view_refuted) all rows are copies of one row. C94_pieces: the pieces concatenate to the dataframe, are never empty, and are as many as the files if (files-1)^2 < rows; the other files contain an empty line."
  },
  {
   "property": "C95",
   "status": "partial",
   "theorems": [
    "C95_round_trip_partial",
    "C95_more_files",
    "C95_empty_file_refuted",
    "C95_types_refuted",
    "C95_outcome"
   ],
   "note": "C95_round_trip_partial composes C94, C85 (bytes), C84 (the pool over files) and C71. Guards: cells that survive in each file (as in C49/C85), as many pieces as files, no other file in the directory. Refuted without: a file without rows makes the reader fail (C95_more_files, C95_empty_file_refuted); a column whose pieces look like different types makes ToDataFrame panic (C95_types_refuted). The marks of string columns are lost when there are several files."
  },
  {
   "property": "C96",
   "status": "partial",
   "theorems": [
    "C96_rows",
    "C96_no_directory",
    "C96_test_rows_refuted"
   ],
   "note": "False: the test set is an index view and MaintainOrder is not set, so every row in outdir is a copy of one row of the storage (C96_rows, for all runs), in the witness a training row (C96_test_rows_refuted). The ignored error of ToCSVDir becomes a panic when reading (C96_no_directory)."
  },
  {
   "property": "C97",
   "status": "partial",
   "theorems": [
    "C97_any_schedule_partial",
    "C97_files_partial",
    "C97_same_writer_refuted",
    "C97_panic_returns_refuted"
   ],
   "note": "Transition system with one step per batch, error assignment, wg.Done, Wait and end of the process (M_Writers). C97_any_schedule_partial: every reachable state, termination bound, equality with the sequential model to_csvs; C97_files_partial adds C47. Guards: every goroutine has its own writer, and there are rows or at most one writer (otherwise the caller panics, C47_no_rows). False for a writer passed twice (C97_same_writer_refuted) and, if a cell cannot be written, ToCSVs may return nil just before the process ends (C97_panic_returns_refuted)."
  },
  {
   "property": "C98",
   "status": "partial",
   "theorems": [
    "C98_printed",
    "C98_bound",
    "C98_same",
    "C98_apart",
    "C98_read",
    "C98_exact",
    "C98_special",
    "C98_head",
    "C98_records_partial",
    "C98_zero_refuted"
   ],
   "note": "C98_printed characterises the text completely (iff). C98_records_partial has the guard of C82 on percent signs in names. Other formats than %f and %.Nf with at most a million decimals stay a parameter. A number that is not zero can be printed as -0.000 (C98_zero_refuted)."
  },
  {
   "property": "C99",
   "status": "partial",
   "theorems": [
    "C99_scaler",
    "C99_imputer",
    "C99_view",
    "C99_view_refuted"
   ],
   "note": "Holds with DetachedView (C99_scaler, C99_imputer). With View, as preprocessing/interfaces.go:46-48 recommends, the dataframe is transformed too (C99_view, C99_view_refuted)."
  },
  {
   "property": "C100",
   "status": "partial",
   "theorems": [
    "C100_printed",
    "C100_unique",
    "C100_generated",
    "C100_invariant",
    "C100_transfer",
    "C100_hash_partial",
    "C100_hash_refuted",
    "C100_unshare_refuted"
   ],
   "note": "The printed text and its injectivity for all numbers; C100_invariant: the claim is kept by View, ColumnView, DetachedView, ShallowCopy and Copy, also with respect to all other dataframes; HashStringsView unless as many names are given as there are columns (C100_hash_partial). False in general: hashing every column shares the string columns under a new UID (C100_hash_refuted), and Unshare draws a new UID although columns not recorded as shared stay shared (C100_unshare_refuted)."
  },
  {
   "property": "C101",
   "status": "partial",
   "theorems": [
    "C101_sorted",
    "C101_names",
    "C101_number",
    "C101_sorted_refuted",
    "C101_documented_refuted",
    "C101_min_rows_refuted"
   ],
   "note": "Proved: the number of files and when there is more than one, the number in each name, sorted and of equal length up to 1000 files, all files but the last have at least half of MinRowsPerFile rows. False as stated: numbering starts at 0 and with one digit for few files (C101_documented_refuted), files can have fewer rows than MinRowsPerFile (C101_min_rows_refuted), and with more than 1000 files the names are not in order (C101_sorted_refuted)."
  },
  {
   "property": "C102",
   "status": "partial",
   "theorems": [
    "C102_hash_partial",
    "C102_onehot",
    "C102_auto_partial",
    "C102_hash_refuted",
    "C102_auto_refuted"
   ],
   "note": "HashEncoder: proved if the dataframe has another column than those hashed; otherwise the string columns stay, in the cells of the argument (C102_hash_refuted). OneHotEncoder: proved for every successful TransformView unless a column to be dropped is named like a new one. AutoPreprocessor: proved if at least one float column is transformed or neither imputing nor scaling is on; without float columns DetachedView() gets no names and copies every column (C102_auto_refuted)."
  },
  {
   "property": "C103",
   "status": "proved",
   "theorems": [
    "C103_fill",
    "C103_clash"
   ],
   "note": "For builders that got each slice given to Set* once (see C37) and whose marks are on columns of objects. C103_fill: result if the names are free; C103_clash: panic if not and there are rows."
  },
  {
   "property": "C104",
   "status": "partial",
   "theorems": [
    "C104_views",
    "C104_hash",
    "C104_detached_partial",
    "C104_detached_refuted",
    "C104_all"
   ],
   "note": "C104_views is unconditional and covers all functions on the list but HashStringsView and DetachedView. DetachedView: exact number of cells, proved unless as many names are given as there are columns without being their names; then everything is copied (C104_detached_refuted), and so it is without names (C104_all). The temporary copy of one column that SortedView and TopView make for sorting is not counted."
  },
  {
   "property": "C105",
   "status": "partial",
   "theorems": [
    "C105_same",
    "C105_shorter",
    "C105_longer",
    "C105_doc_refuted",
    "C105_missing",
    "C105_map"
   ],
   "note": "Proved for as many values as rows. The comment claims it for any number of values, which is false (C105_doc_refuted); C105_shorter and C105_longer say what happens then. The loop with a function applies it once per row that shows the record (C105_map), so once for each record only without repeated rows."
  },
  {
   "property": "C106",
   "status": "proved",
   "theorems": [
    "C106_mask",
    "C106_index",
    "C106_zero_mask",
    "C106_fresh",
    "C106_inherited",
    "C106_recycled",
    "C106_shared_refuted"
   ],
   "note": "Without ThreadSafeMasking masks of a dataframe and its views are the same memory (C106_recycled, C106_shared_refuted), as the comments warn for concurrent use; it is so in one goroutine too."
  },
  {
   "property": "C107",
   "status": "partial",
   "theorems": [
    "C107_imputer",
    "C107_scaler",
    "C107_column_view",
    "C107_hash",
    "C107_onehot",
    "C107_auto",
    "C107_names_refuted"
   ],
   "note": "Same values: proved for all five preprocessors. Left as they are: true of columns that are not called like a new column or (for OneHotEncoder, without regard to types) like an encoded one; otherwise they are overwritten or dropped (C107_names_refuted). HashEncoder needs at least one other column (C24)."
  },
  {
   "property": "C108",
   "status": "partial",
   "theorems": [
    "C108_order",
    "C108_twice",
    "C108_refuted"
   ],
   "note": "C108_order gives all costs; the last step, DetachedView <= Copy, holds when the dataframe shows as many rows as it stores, and fails for smaller views (C108_refuted). SortedView's temporary copy is not among these functions."
  },
  {
   "property": "C109",
   "status": "proved",
   "theorems": [
    "C109_get",
    "C109_set",
    "C109_seen",
    "C109_missing",
    "C109_mask"
   ],
   "note": ""
  },
  {
   "property": "C110",
   "status": "proved",
   "theorems": [
    "C110_copy",
    "C110_shared",
    "C110_viewed",
    "C110_panics"
   ],
   "note": ""
  },
  {
   "property": "C111",
   "status": "proved",
   "theorems": [
    "C111_live",
    "C111_stale_refuted"
   ],
   "note": "Operations that replace the data of a column, such as Unshare, leave old accesses behind (C111_stale_refuted)."
  },
  {
   "property": "C112",
   "status": "proved",
   "theorems": [
    "C112_separates",
    "C112_missing",
    "C112_unknown"
   ],
   "note": "Int has 64 bits, as elsewhere in the model."
  },
  {
   "property": "C113",
   "status": "partial",
   "theorems": [
    "C113_split_join",
    "C113_train_test",
    "C113_shuffled",
    "C113_split_n_refuted"
   ],
   "note": "False for SplitNView when the rows do not fill the parts: the padding has no columns and RowConcat returns an error (C113_split_n_refuted)."
  },
  {
   "property": "C114",
   "status": "proved",
   "theorems": [
    "C114_index_index",
    "C114_slice_slice",
    "C114_columns_rows",
    "C114_columns_columns"
   ],
   "note": ""
  },
  {
   "property": "C115",
   "status": "proved",
   "theorems": [
    "C115_rows",
    "C115_written"
   ],
   "note": "SliceView with bounds beyond the rows is excluded; it can show rows of the parent (C66_slice_view_resurrects_rows_refuted)."
  },
  {
   "property": "C116",
   "status": "proved",
   "theorems": [
    "C116_sequences",
    "C116_shuffle",
    "C116_sample"
   ],
   "note": "About the shuffling algorithm: the quality of the random source itself is not modelled; rand.Shuffle is the documented Fisher-Yates loop."
  },
  {
   "property": "C117",
   "status": "proved",
   "theorems": [
    "C117_value",
    "C117_column",
    "C117_refused",
    "C117_training",
    "C117_imputed_refuted"
   ],
   "note": "The inverse is a specification-side function; the code has none. C117_imputed_refuted shows that ImputeWithMostFrequent loses the missing values."
  },
  {
   "property": "C118",
   "status": "proved",
   "theorems": [
    "C118_order",
    "C118_batches_refuted"
   ],
   "note": "Exact (real) arithmetic, as in C75 to C77; floating-point sums depend on the order by rounding. C118_batches_refuted shows that smaller batches depend on the order."
  },
  {
   "property": "C119",
   "status": "partial",
   "theorems": [
    "C119_imputer",
    "C119_standardised",
    "C119_centered",
    "C119_scaled_partial",
    "C119_scaling_refuted",
    "C119_minmax_refuted"
   ],
   "note": "False for min-max scaling (C119_minmax_refuted, a consequence of C51) and for scaling constant columns without centering (C119_scaling_refuted); proved in all other cases. The scaler part is in exact arithmetic."
  },
  {
   "property": "C120",
   "status": "proved",
   "theorems": [
    "C120_numbers",
    "C120_compare",
    "C120_parts",
    "C120_order",
    "C120_objective"
   ],
   "note": "Exact arithmetic, as documented in C61; float64 rounding is the subject of C61_float64."
  },
  {
   "property": "C121",
   "status": "proved",
   "theorems": [
    "C121_units",
    "C121_back"
   ],
   "note": "Exact arithmetic. The inverse is stated for columns that are not constant; the scale of a constant column is arbitrary."
  },
  {
   "property": "C122",
   "status": "proved",
   "theorems": [
    "C122_mean",
    "C122_standardised"
   ],
   "note": "Exact arithmetic."
  },
  {
   "property": "C123",
   "status": "proved",
   "theorems": [
    "C123_linear",
    "C123_scaled"
   ],
   "note": "Exact arithmetic, as in C75 to C77. Fit also standardises the target before the loop, see C121."
  },
  {
   "property": "C124",
   "status": "proved",
   "theorems": [
    "C124_mean",
    "C124_errors",
    "C124_converted",
    "C124_large_refuted"
   ],
   "note": "IEEE binary64 with rounding to nearest even. C124_large_refuted shows that larger sums are rounded on the way and then depend on the order of the rows."
  },
  {
   "property": "C125",
   "status": "proved",
   "theorems": [
    "C125_monotone",
    "C125_fitted",
    "C125_strict_refuted"
   ],
   "note": "IEEE binary64. C125_strict_refuted shows that different values may become equal."
  },
  {
   "property": "C126",
   "status": "proved",
   "theorems": [
    "C126_bound",
    "C126_reached",
    "C126_few",
    "C126_ten_rows"
   ],
   "note": "Exact arithmetic (real_arith), as C50."
  },
  {
   "property": "C127",
   "status": "proved",
   "theorems": [
    "C127_constant",
    "C127_best",
    "C127_zero",
    "C127_back"
   ],
   "note": "Exact arithmetic (real_arith), as C50 and C61. In C127_back the scaler is the standardising one and the target has no missing values."
  },
  {
   "property": "C128",
   "status": "proved",
   "theorems": [
    "C128_unit",
    "C128_features"
   ],
   "note": "Exact arithmetic. exact_predictions (P_TargetMain.v) puts the model functions of Fit and Predict on lists of numbers together; C60_fit_partial and C59_predict_partial relate these to dataframes."
  }
 ]
}