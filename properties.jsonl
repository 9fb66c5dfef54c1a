{"id": "C01", "title": "IndexView selects rows exactly", "statement": "df.IndexView(indices) returns a dataframe with the same columns whose row j equals row indices[j] of df for every column, with repetitions and any order allowed; it panics exactly when some index is negative or >= df.NumRows(); df itself, its columns and its data are unchanged.", "quantifier": "every well-formed dataframe (itself possibly a view of a view), every column, every list of ints", "why_tests_cant": "the claim ranges over every view chain, every index list and every column", "anchors": ["dataframe/view.go:IndexView", "dataframe/view.go:View"]}
{"id": "C02", "title": "SliceView takes the contiguous rows [from,to)", "statement": "For 0<=from<=to<=NumRows after negative bounds have been translated by NumRows+1, df.SliceView(from,to) has exactly the rows from..to-1 of df, in order, in every column; the result does not depend on which of the two internal representations (index view or re-sliced columns) the size heuristic picks; df is unchanged.", "quantifier": "every well-formed dataframe, every pair of bounds, every column count (hence both sides of the heuristic)", "why_tests_cant": "the heuristic switches representation on to-from > 10*NumColumns; tests only sample sizes on one side", "anchors": ["dataframe/view.go:SliceView", "dataframe/inplace.go:cut", "dataframe/raw_data.go:reallocateMaps"]}
{"id": "C03", "title": "SliceView with from > to reverses the requested rows", "statement": "When from > to (after translation), the documentation says the row order is reversed: SliceView(from,to) should be SliceView(to,from) in reverse order.", "quantifier": "every well-formed dataframe and every from > to", "why_tests_cant": "only symmetric bounds hide the difference, and the existing test uses a single pair of bounds", "anchors": ["dataframe/view.go:SliceView", "dataframe/view.go:ReverseView"]}
{"id": "C04", "title": "MaskView is IndexView of the true positions", "statement": "df.MaskView(mask) has exactly the rows whose mask entry is true, in order, equal to df.IndexView of the list of true positions; it panics exactly when a true entry lies at or beyond NumRows; later changes to the mask do not change the view.", "quantifier": "every well-formed dataframe and every mask of any length", "why_tests_cant": "all masks and lengths", "anchors": ["dataframe/view.go:MaskView"]}
{"id": "C05", "title": "ColumnView keeps exactly the selected columns", "statement": "df.ColumnView(cols) with at least one name has exactly the columns of df whose name is in cols, with the same rows and values and the same string marks, and with no name it has all columns; df's columns and data are unchanged.", "quantifier": "every well-formed dataframe, every list of names including duplicates and unknown names", "why_tests_cant": "all subsets of names", "anchors": ["dataframe/view.go:ColumnView"]}
{"id": "C06", "title": "ReverseView flips the rows and is an involution", "statement": "df.ReverseView() has the rows of df in reverse order in every column and applying it twice gives back the rows of df.", "quantifier": "every well-formed dataframe", "why_tests_cant": "every length and every column", "anchors": ["dataframe/view.go:ReverseView"]}
{"id": "C07", "title": "ShuffleView is a permutation that keeps rows together", "statement": "For every outcome of the random source, df.ShuffleView() has the same multiset of rows as df, one and the same permutation being applied to all columns; every permutation is the outcome of some random source.", "quantifier": "every well-formed dataframe and every sequence of random draws", "why_tests_cant": "random outcome space", "anchors": ["dataframe/view.go:ShuffleView"]}
{"id": "C08", "title": "SampleView draws n distinct rows", "statement": "df.SampleView(n,false) returns n rows at pairwise distinct positions of df, all columns aligned; it panics if and only if n > NumRows or n < 0 or replacement was requested.", "quantifier": "every dataframe, every n, every random outcome", "why_tests_cant": "random outcome space", "anchors": ["dataframe/view.go:SampleView"]}
{"id": "C09", "title": "SplitView partitions the rows into batches", "statement": "The concatenation of df.SplitView(b) is df, every batch except the last has exactly b rows, the last has between 1 and b rows when df is not empty; it panics exactly when b <= 0.", "quantifier": "every well-formed dataframe and every batch size", "why_tests_cant": "all (rows, batchSize) pairs and both slicing representations", "anchors": ["dataframe/view.go:SplitView", "dataframe/inplace.go:cut"]}
{"id": "C10", "title": "SplitNView returns exactly n parts covering the dataframe", "statement": "df.SplitNView(n) returns exactly n dataframes whose rows concatenate to df, in order; n=0 gives nil and n<0 panics.", "quantifier": "every well-formed dataframe and every n", "why_tests_cant": "all (rows, n) pairs, including more parts than rows and empty dataframes", "anchors": ["dataframe/view.go:SplitNView"]}
{"id": "C11", "title": "SplitTrainTestViews partitions the rows", "statement": "For every ratio r in [0,1], (train,test)=df.SplitTrainTestViews(r) satisfy train ++ test = df, and test has floor(fl(NumRows*r)) rows, where fl is binary64 rounding; it panics when r<0 or r>1.", "quantifier": "every dataframe of fewer than 2^53 rows and every binary64 ratio", "why_tests_cant": "every floating point ratio, rounding included", "anchors": ["dataframe/view.go:SplitTrainTestViews"]}
{"id": "C12", "title": "SortedView sorts", "statement": "df.SortedView(c) is a permutation of the rows of df, keeping rows together, and the values of column c are in ascending order (false before true, stable for bools; for ints and NaN-free floats); it panics if c is not a float, int or bool column.", "quantifier": "every dataframe, every sortable column, every outcome of the unstable argsort", "why_tests_cant": "all inputs, including NaN and integers beyond 2^53", "anchors": ["dataframe/view.go:SortedView", "utils/utils.go:FloatArgSort"]}
{"id": "C13", "title": "TopView returns the extreme rows", "statement": "df.TopView(c,n,ascending,sorted) has min(n,NumRows) rows; every row left out has a value no better than every row kept; with sorted=true the rows kept come in the requested order; negative n panics.", "quantifier": "every dataframe, n, both flags, every outcome of the argsort", "why_tests_cant": "all inputs", "anchors": ["dataframe/view.go:TopView"]}
{"id": "C14", "title": "ResetIndexView keeps the rows and orders them by storage position", "statement": "df.ResetIndexView() has the same multiset of rows as df, rows kept together, with the storage positions ascending; df unchanged.", "quantifier": "every well-formed dataframe", "why_tests_cant": "all views, including ones with repeated rows", "anchors": ["dataframe/view.go:ResetIndexView"]}
{"id": "C15", "title": "A write through one dataframe is seen exactly where the cell is shared", "statement": "After access.Set(i,v) on a column of a dataframe, access.Get(i) is v, and for any other dataframe and column Get(j) is v if it denotes the same cell and is unchanged otherwise.", "quantifier": "every pair of dataframes in a shared heap, every kind, column and row", "why_tests_cant": "all sharing topologies", "anchors": ["dataframe/column_access.go:Set", "dataframe/column_access.go:Get"]}
{"id": "C16", "title": "DetachedView isolates the detached columns", "statement": "df.DetachedView(cols) has the rows and columns of df; writing any of the columns cols through it never changes df or any dataframe that existed before, and the other columns still share their data with df.", "quantifier": "every dataframe, every list of existing distinct column names, every later write", "why_tests_cant": "all sharing topologies", "anchors": ["dataframe/view.go:DetachedView", "dataframe/raw_data.go:Unshare"]}
{"id": "C17", "title": "Copy is equal and independent", "statement": "df.Copy() has the same columns and rows as df; no later write to either changes the other; the copy is contiguous.", "quantifier": "every well-formed dataframe, every later sequence of writes", "why_tests_cant": "all histories of writes", "anchors": ["dataframe/dataframe.go:Copy"]}
{"id": "C18", "title": "Structural changes to a view leave the original alone", "statement": "Renaming, allocating, creating by Overwrite*, converting or dropping a column of df.View() leaves the column set, string marks and data of df unchanged.", "quantifier": "every dataframe and every structural operation applied to its view", "why_tests_cant": "every operation and every string/non-string column", "anchors": ["dataframe/raw_data.go:Rename", "dataframe/raw_data.go:Drop", "dataframe/raw_data.go:AllocStrings", "dataframe/raw_data.go:reallocateMaps"]}
{"id": "C19", "title": "Unshare makes later writes private", "statement": "After data.Unshare(cols) on a dataframe that was obtained as a shallow copy, writing to cols never changes the data of the dataframe it was copied from, whatever other views were taken in between.", "quantifier": "every history of ShallowCopy, ColumnView, Unshare and writes", "why_tests_cant": "depends on the history of views", "anchors": ["dataframe/raw_data.go:Unshare", "dataframe/view.go:ColumnView", "dataframe/dataframe.go:ShallowCopy"]}
{"id": "C20", "title": "Every history of operations leaves all dataframes consistent", "statement": "After any sequence of public operations starting from built dataframes, in every live dataframe all columns have the same allocated length, every row index is in range (so Get/Set on a row below NumRows never panics), the mask is large enough, and values have their column's type.", "quantifier": "every finite sequence of operations on every set of dataframes", "why_tests_cant": "unbounded histories of aliasing views", "anchors": ["dataframe/checks.go:CheckConsistency", "dataframe/view.go", "dataframe/raw_data.go", "dataframe/inplace.go"]}
{"id": "C21", "title": "AreIndicesAltered is sound", "statement": "Whenever df.AreIndicesAltered() is false, the row indices are exactly 0..NumRows-1 and NumRows equals the number of allocated rows.", "quantifier": "every reachable dataframe", "why_tests_cant": "fast paths (Copy, VecDense, DenseMatrix, cut) rely on it in every reachable state", "anchors": ["dataframe/view.go:AreIndicesAltered"]}
{"id": "C22", "title": "Overwrite* stores the values", "statement": "After df.OverwriteX(col,values) with len(values) >= NumRows and no repeated row, Get(i) = values[i] for every row, rows of the column outside the view and all other columns are unchanged, and a missing column is created; it panics when there are too few values.", "quantifier": "every dataframe with at least one column, every column and values", "why_tests_cant": "all views and existing/new columns", "anchors": ["dataframe/inplace.go:OverwriteInts", "dataframe/inplace.go:OverwriteFloats64", "dataframe/inplace.go:OverwriteBools", "dataframe/inplace.go:OverwriteObjects", "dataframe/inplace.go:OverwriteStrings"]}
{"id": "C23", "title": "Masks have the right size and ZeroMask is all false", "statement": "On every reachable dataframe ZeroMask and EmptyMask return a mask of exactly NumRows entries without panicking, ZeroMask's entries are all false, and no column data changes.", "quantifier": "every reachable dataframe, thread-safe or not", "why_tests_cant": "views with more rows than their parent extend the mask", "anchors": ["dataframe/dataframe.go:ZeroMask", "dataframe/dataframe.go:EmptyMask", "dataframe/view.go:IndexView"]}
{"id": "C24", "title": "HashStringsView replaces string columns with their hashes", "statement": "df.HashStringsView(cols) has the columns of df except that each column of cols is an int column holding, for each row, fnv1a64(s) mod (2^63-1) when the value is the string s and -1 otherwise; hashes are never negative, equal strings get equal hashes; the result does not depend on the number of workers or their schedule; df is unchanged.", "quantifier": "every dataframe, every list of its string columns, every worker count and interleaving", "why_tests_cant": "all strings and all schedules", "anchors": ["dataframe/view.go:HashStringsView", "dataframe/view.go:workerHashes"]}
{"id": "C25", "title": "LabelToInt is a bijection onto 0..k-1", "statement": "df.LabelToInt(c) maps the distinct strings of c one-to-one onto 0..k-1 in order of first appearance, converts every row by that map and nil to -1.", "quantifier": "every dataframe and string column", "why_tests_cant": "all label sequences", "anchors": ["dataframe/conversions.go:LabelToInt"]}
{"id": "C26", "title": "CopyValuesToInterfaces returns the visible values", "statement": "df.CopyValuesToInterfaces(c) returns the values of column c in row order and panics exactly if c is no column.", "quantifier": "every dataframe and column name", "why_tests_cant": "all views", "anchors": ["dataframe/conversions.go:CopyValuesToInterfaces"]}
{"id": "C27", "title": "The row iterator visits every row once, in order", "statement": "Successive NextRow calls deliver for i=0..NumRows-1 the row of the float32 conversions of the requested columns in the requested order, with its view index and storage index, then nil with the sizes; also after Reset.", "quantifier": "every dataframe, every list of numeric columns, every number of rows (across the 128-row chunk boundary)", "why_tests_cant": "all sizes across chunk boundaries and all column type mixes", "anchors": ["dataframe/row_iterators.go:NextRow", "dataframe/float_batching.go:initialize"]}
{"id": "C28", "title": "DenseMatrix holds the rows of the dataframe", "statement": "Every call bat.DenseMatrix(df) on one Dense64Batching returns the NumRows x len(columns) matrix of the values of df, whatever dataframes were batched before.", "quantifier": "every sequence of dataframes given to one batching object", "why_tests_cant": "the buffer is recycled between calls: depends on the history of sizes", "anchors": ["dataframe/dense_gonum_batching.go:DenseMatrix"]}
{"id": "C29", "title": "VecDense and VecDenseCopy hold the column", "statement": "Both return the visible values of the float column in row order.", "quantifier": "every reachable dataframe and float column", "why_tests_cant": "the zero-copy path is taken on contiguous dataframes only", "anchors": ["dataframe/column_access.go:VecDense", "dataframe/column_access.go:VecDenseCopy"]}
{"id": "C30", "title": "RowConcat concatenates rows and checks columns", "statement": "RowConcat(dfs...) returns the concatenation of the rows of dfs, in fresh storage, or an error exactly when the dataframes do not have the same columns.", "quantifier": "every non-empty list of dataframes", "why_tests_cant": "all column sets and views", "anchors": ["dataframe/concat.go:RowConcat"]}
{"id": "C31", "title": "ColumnConcatView joins columns of aligned dataframes only", "statement": "ColumnConcatView(dfs...) returns a dataframe with the columns of all dfs, row i of every column being row i of the dataframe it comes from, with their string marks, or an error if columns overlap or if the number of rows or the inner indices don't match.", "quantifier": "every non-empty list of dataframes", "why_tests_cant": "index equality is decided by a 64-bit hash; all index lists", "anchors": ["dataframe/concat.go:ColumnConcatView", "utils/utils.go:HashIntSlice", "dataframe/checks.go:CheckNoColumnOverlap"]}
{"id": "C32", "title": "ColumnCopyConcat joins any dataframes with as many rows", "statement": "ColumnCopyConcat(dfs...) succeeds exactly if all dfs have the same number of rows and no common column; row i of the result is row i of every input; nothing is shared with the inputs.", "quantifier": "every non-empty list of dataframes", "why_tests_cant": "all views", "anchors": ["dataframe/concat.go:ColumnCopyConcat"]}
{"id": "C33", "title": "ColumnSmartConcat never misaligns rows", "statement": "When ColumnSmartConcat(dfs...) succeeds, row i of every column of the result is row i of the dataframe it comes from.", "quantifier": "every non-empty list of dataframes", "why_tests_cant": "depends on hash collisions between index lists", "anchors": ["dataframe/concat.go:ColumnSmartConcat"]}
{"id": "C34", "title": "MergeRawDataRows appends columns", "statement": "Each column of MergeRawDataRows(list) is the concatenation of that column over the list in order; the storage is fresh; string columns stay string columns.", "quantifier": "every list of raw data", "why_tests_cant": "all lists", "anchors": ["dataframe/raw_data.go:MergeRawDataRows"]}
{"id": "C35", "title": "Column headers behave as sets and never alias the dataframe", "statement": "And, Except, ExceptHeader, Columns, Copy compute set union, difference and so on; NameList lists every name once; altering a header returned by Header/IntHeader/... never changes the dataframe.", "quantifier": "all headers and dataframes", "why_tests_cant": "all sets and aliasing", "anchors": ["dataframe/column_header.go"]}
{"id": "C36", "title": "ToDataFrame accepts exactly rectangular data", "statement": "ToDataFrame panics exactly if two columns have different lengths, whatever column the map iteration looks at first; otherwise the dataframe shows every row of every column.", "quantifier": "every raw data and every map iteration order", "why_tests_cant": "iteration order is random", "anchors": ["dataframe/raw_data.go:ToDataFrame", "dataframe/raw_data.go:NumAllocatedRows"]}
{"id": "C37", "title": "A builder accumulates exactly what was added", "statement": "After any sequence of Add*/Set*/MarkAsString calls each column holds the values set last followed by those added since, in order.", "quantifier": "every sequence of builder calls", "why_tests_cant": "unbounded sequences, slice capacity growth", "anchors": ["dataframe/builder.go"]}
{"id": "C38", "title": "Type conversions keep the numbers", "statement": "IntToFloats/BoolToFloats replace each given column by a float column with the converted values, the old column being removed and other columns unchanged.", "quantifier": "every dataframe and list of columns", "why_tests_cant": "all columns and views", "anchors": ["dataframe/raw_data.go:IntToFloats", "dataframe/raw_data.go:BoolToFloats"]}
{"id": "C39", "title": "Rename moves a column", "statement": "After Rename(old,new) the dataframe has column new with the data of old, old is gone, other columns are unchanged; it panics exactly if old is no column.", "quantifier": "every dataframe and pair of names", "why_tests_cant": "all pairs of names, including equal ones", "anchors": ["dataframe/raw_data.go:Rename"]}
{"id": "C40", "title": "Encode is all or nothing", "statement": "df.Encode(e) re-encodes every visible string exactly once and records e, or returns an error leaving every string as it was.", "quantifier": "every dataframe, every pair of codecs that invert each other, every failing position", "why_tests_cant": "every failure point", "anchors": ["dataframe/inplace.go:Encode", "dataframe/inplace.go:inplaceEncoding"]}
{"id": "C41", "title": "The worker queue processes every key exactly once under every schedule", "statement": "For every list of keys, number of workers and interleaving, each key is handed to exactly one worker, the collector receives exactly one notification per key and terminates; no schedule deadlocks.", "quantifier": "all key lists, worker counts and interleavings", "why_tests_cant": "interleavings", "anchors": ["utils/string_q.go:CreateStringQueue", "utils/string_q.go:Next", "utils/string_q.go:Results"]}
{"id": "C42", "title": "Parallel column jobs commute", "statement": "The final dataframe of every multi-threaded operation (HashStringsView, Scaler, OneHotEncoder, FromCSV) is the same for every interleaving of its workers.", "quantifier": "all interleavings", "why_tests_cant": "interleavings", "anchors": ["dataframe/view.go:workerHashes", "preprocessing/scaler.go:workerTransforms", "preprocessing/one_hot.go:workerTransforms", "dataframe/csv_parsing.go:toNativeTypes"]}
{"id": "C43", "title": "FromCSVFilePattern starts at least one worker", "statement": "For every number of matching files and CPUs, FromCSVFilePattern starts at least one worker and therefore terminates.", "quantifier": "all file counts and CPU counts", "why_tests_cant": "depends on the machine's CPU count", "anchors": ["dataframe/csv_parsing.go:FromCSVFilePattern"]}
{"id": "C44", "title": "CSV type inference follows the documented ladder", "statement": "With default options a column is bool if all cells parse as bools, otherwise int if all non-missing cells parse as ints, otherwise float if all non-missing cells parse as floats, otherwise string; values are the parsed cells; missing cells become -1, NaN or nil.", "quantifier": "every table of cells, every set of missing markers", "why_tests_cant": "all cell contents", "anchors": ["dataframe/csv_parsing.go:toNativeTypes", "dataframe/csv_parsing.go:FromCSV"]}
{"id": "C45", "title": "The *AsFloat reading options do what they say", "statement": "BinaryAsFloat makes 0/1 columns float columns; BoolAsFloat makes true/false/0/1 columns float columns; IntAsFloat makes integer columns float columns.", "quantifier": "every table of cells", "why_tests_cant": "all option combinations", "anchors": ["dataframe/csv_parsing.go:CSVReadingSpec", "dataframe/csv_parsing.go:toNativeTypes"]}
{"id": "C46", "title": "To1CSV writes every visible row once", "statement": "The records written by To1CSV are the header followed by the rendered rows of the dataframe, each row once (in order if MaintainOrder), rendering nil strings with the missing marker.", "quantifier": "every dataframe, options, and number of rows across the 256-row batches", "why_tests_cant": "all views and sizes", "anchors": ["dataframe/csv_writing.go:To1CSV", "dataframe/csv_writing.go:sortIfNeeded"]}
{"id": "C47", "title": "ToCSVs splits the rows between the writers", "statement": "ToCSVs(writers) writes every row to exactly one writer, in order across writers, and gives every writer a header; it does not panic.", "quantifier": "every dataframe and number of writers", "why_tests_cant": "all (rows, writers) pairs", "anchors": ["dataframe/csv_writing.go:ToCSVs"]}
{"id": "C48", "title": "ToCSVDir names distinct files within the CPU limit", "statement": "ToCSVDir writes to between 1 and max(1,ActualMaxCPU) pairwise distinct paths starting with the prefix.", "quantifier": "every dataframe, options and prefix", "why_tests_cant": "all counts", "anchors": ["dataframe/csv_writing.go:ToCSVDir"]}
{"id": "C49", "title": "CSV round trip", "statement": "Writing a dataframe of bool, int, float and string columns with To1CSV and reading the records back with FromCSV gives back the same columns with the same types and values.", "quantifier": "every dataframe", "why_tests_cant": "all values", "anchors": ["dataframe/csv_writing.go:To1CSV", "dataframe/csv_parsing.go:FromCSV"]}
{"id": "C50", "title": "Scaler standardises", "statement": "After Fit and TransformInplace with centering and scaling, each fitted column of the training dataframe has mean 0 and, unless constant, variance 1 (in exact arithmetic, ignoring missing values).", "quantifier": "every dataframe", "why_tests_cant": "all data", "anchors": ["preprocessing/scaler.go:workerFits", "preprocessing/scaler.go:workerTransforms"]}
{"id": "C51", "title": "Min-max scaling maps onto [0,1]", "statement": "After Fit and TransformInplace with MinMax, values lie in [0,1], the minimum being 0 and the maximum 1.", "quantifier": "every non-constant column", "why_tests_cant": "the only test has max-min = 1", "anchors": ["preprocessing/scaler.go:workerFits"]}
{"id": "C52", "title": "InverseTransformInplace undoes TransformInplace", "statement": "Applying TransformInplace then InverseTransformInplace gives back every value (in exact arithmetic), whenever the scale is not zero.", "quantifier": "every scaler and dataframe", "why_tests_cant": "all parameters", "anchors": ["preprocessing/scaler.go:InverseTransformInplace"]}
{"id": "C53", "title": "TransformInplace scales each visible value once", "statement": "Each visible value v becomes (v+shift)*scale, other columns and rows outside the view are untouched.", "quantifier": "every view, also with repeated rows", "why_tests_cant": "all views", "anchors": ["preprocessing/scaler.go:workerTransforms"]}
{"id": "C54", "title": "FloatImputer removes missing values", "statement": "After Fit and TransformInplace no fitted column has a visible NaN, non-missing values are unchanged, and missing ones become the mean of the non-missing training values (or 0, or 1).", "quantifier": "every dataframe and policy", "why_tests_cant": "all data, including all-missing columns", "anchors": ["preprocessing/float_imputer.go"]}
{"id": "C55", "title": "One-hot encoding sets exactly one flag per row and column", "statement": "After Fit and a successful TransformView, for each categorical column and each row exactly one of the boolean columns created for it is true: the one of its category if known, of the missing fallback for -1 and of the unknown fallback otherwise.", "quantifier": "every training and test dataframe, every policy", "why_tests_cant": "all category values and iteration orders", "anchors": ["preprocessing/one_hot.go"]}
{"id": "C56", "title": "One-hot column names never collide", "statement": "Boolean columns created for different (column, category) pairs or fallbacks have different names.", "quantifier": "all column names and category counts", "why_tests_cant": "all names", "anchors": ["preprocessing/one_hot.go:workerFits"]}
{"id": "C57", "title": "One-hot policies are honoured", "statement": "ReturnError makes TransformView return an error exactly if a missing/unknown value is visible; SharedSeparateCategory gives unknown and missing one separate category; Fit succeeds for every option combination.", "quantifier": "every option combination and dataframe", "why_tests_cant": "all combinations", "anchors": ["preprocessing/one_hot.go:fix", "preprocessing/one_hot.go:Fit", "preprocessing/one_hot.go:TransformView"]}
{"id": "C58", "title": "AutoPreprocessor: FitTransform equals Fit then TransformView", "statement": "FitTransform(df) returns the same rows and columns as Fit(df) followed by TransformView(df), df's own data is unchanged, and excluded columns are not transformed.", "quantifier": "every dataframe and options", "why_tests_cant": "all option and column combinations", "anchors": ["preprocessing/auto_preprocessor.go"]}
{"id": "C59", "title": "Predict adds the linear prediction and leaves the input alone", "statement": "Predict(df,c) returns the rows of df (by storage position) with a float column c holding, for each row, the inverse-scaled dot product of weights and features; df is unchanged.", "quantifier": "every model and dataframe", "why_tests_cant": "all data and batch sizes", "anchors": ["algorithms/linear_regression.go:Predict"]}
{"id": "C60", "title": "A training step is a gradient step", "statement": "In exact arithmetic the gradient used by Fit on a batch is the exact gradient of half the squared error, the update is w - lr*g (with momentum and decay as documented), and Fit does not change the input dataframe.", "quantifier": "every batch and weights", "why_tests_cant": "all data", "anchors": ["algorithms/linear_regression.go:Fit"]}
{"id": "C61", "title": "MSE and MAE are the documented means", "statement": "MSE and MAE are the mean squared and mean absolute difference of the two columns (exact arithmetic), non-negative, symmetric, zero exactly when the columns agree; they panic exactly if sizes differ.", "quantifier": "every pair of columns", "why_tests_cant": "all data", "anchors": ["algorithms/evaluation.go"]}
{"id": "C62", "title": "GroupIndexer and SplitStringSlice partition", "statement": "SplitStringSlice(s,n) returns min(n,len(s)) consecutive groups whose concatenation is s.", "quantifier": "all slices and group counts", "why_tests_cant": "all pairs", "anchors": ["utils/group_indexer.go", "utils/utils.go:SplitStringSlice"]}
{"id": "C63", "title": "MakeRange is the arithmetic progression", "statement": "MakeRange(from,to,step) returns from, from+step, ... below to.", "quantifier": "all arguments", "why_tests_cant": "all arguments", "anchors": ["utils/utils.go:MakeRange"]}
{"id": "C64", "title": "The CPU limit is always usable", "statement": "After SetMaxCPU, and in every dataframe, ActualMaxCPU is between 1 and the number of cores.", "quantifier": "all values", "why_tests_cant": "machine dependent", "anchors": ["dataframe/raw_data.go:SetMaxCPU", "dataframe/dataframe.go:EmptyDataFrame"]}
{"id": "C65", "title": "GoodShortNames are unambiguous prefixes", "statement": "Each shorthand is a prefix of its column of length >= minLength and no two columns share one, for every map iteration order.", "quantifier": "all column sets and iteration orders", "why_tests_cant": "iteration order", "anchors": ["dataframe/print.go:GoodShortNames"]}
{"id": "C66", "title": "SliceView rejects out-of-range bounds", "statement": "df.SliceView(from,to) panics when a bound is negative after translation or greater than NumRows; it never gives access to rows outside df nor a dataframe whose Get panics on a row below NumRows.", "quantifier": "every dataframe, including views of views, and every pair of bounds", "why_tests_cant": "slice capacities", "anchors": ["dataframe/view.go:SliceView", "dataframe/inplace.go:cut"]}
{"id": "C67", "title": "Copies keep the text encoding", "statement": "Copy and ShallowCopy return dataframes that remember the text encoding of the original.", "quantifier": "every dataframe", "why_tests_cant": "only visible in combination with Encode", "anchors": ["dataframe/dataframe.go:Copy", "dataframe/dataframe.go:ShallowCopy", "dataframe/raw_data.go:TransferRawDataFrom"]}
{"id": "C68", "title": "IndexOfString finds the first position", "statement": "IndexOfString(e,l) is the smallest i with l[i]=e, or -1 if there is none.", "quantifier": "all strings and slices", "why_tests_cant": "all pairs", "anchors": ["utils/utils.go:IndexOfString"]}
{"id": "C69", "title": "NewFloat32Iterator ignores columns that are not numeric", "statement": "As documented, given columns that are not float, bool or int are ignored and the iterator delivers the others.", "quantifier": "every dataframe and list of columns", "why_tests_cant": "all column type mixes; no test passes a string column", "anchors": ["dataframe/row_iterators.go:NewFloat32Iterator", "dataframe/float_batching.go:initialize"]}
{"id": "C70", "title": "MergeRawDataColumns is the union of the columns", "statement": "MergeRawDataColumns(list) has the columns of all elements, the later one winning for equal names and types, marks as string columns those marked in some element, shares instead of copies, and protects every column as shared.", "quantifier": "every list of raw data", "why_tests_cant": "all lists", "anchors": ["dataframe/raw_data.go:MergeRawDataColumns", "dataframe/raw_data.go:TransferRawDataFrom"]}
{"id": "C71", "title": "FromCSVFilePattern concatenates the files", "statement": "For several matching files, every column of the result is the concatenation of the file's columns in the order of arrival, and the result can be turned into a dataframe with the same string columns and encoding as for one file.", "quantifier": "all file contents and arrival orders", "why_tests_cant": "all contents and schedules", "anchors": ["dataframe/csv_parsing.go:FromCSVFilePattern", "dataframe/raw_data.go:MergeRawDataRows"]}
{"id": "C72", "title": "The scaler maps constant columns to zero", "statement": "After Fit and TransformInplace with centering and scaling, every non-missing value of a column whose non-missing values are all equal is 0.", "quantifier": "every constant column, with missing values", "why_tests_cant": "all values and lengths; rounding of the mean depends on them", "anchors": ["preprocessing/scaler.go:workerFits", "preprocessing/scaler.go:workerTransforms"]}
{"id": "C73", "title": "HashEncoder hashes the string columns of the training data", "statement": "Fit remembers the string columns of its dataframe; TransformView of any dataframe with these columns replaces each by the int column of its hashes (missing: -1), keeps the other columns and rows and leaves its argument unchanged.", "quantifier": "every pair of dataframes and iteration order", "why_tests_cant": "all dataframes", "anchors": ["preprocessing/hash_encoder.go"]}
{"id": "C74", "title": "AutoPreprocessor lists its columns", "statement": "TransformedColumns of a trained AutoPreprocessor returns the columns TransformView changes: the float columns that are not excluded and the categorical columns.", "quantifier": "every training dataframe, option and iteration order", "why_tests_cant": "all dataframes and options", "anchors": ["preprocessing/auto_preprocessor.go:TransformedColumns"]}
{"id": "C75", "title": "A small enough step never increases the loss of its batch", "statement": "In exact arithmetic, without decay and momentum, if the learning rate times the sum of the squared features of the batch is at most 2, a step of Fit does not increase the squared error of the batch, it decreases it by at least lr(1-lr*S/2)|g|^2, and it leaves the weights alone exactly if they are a least-squares solution.", "quantifier": "every batch, weights and learning rate", "why_tests_cant": "real-valued data", "anchors": ["algorithms/linear_regression.go:Fit"]}
{"id": "C76", "title": "Training does not move away from weights that explain the data", "statement": "In exact arithmetic, without decay and momentum and with a small enough learning rate, if some weights explain all targets, the weights are after any number of epochs, with any batch size and any shuffles, at most as far from them as at the beginning.", "quantifier": "every dataset, batch size, number of epochs and shuffle", "why_tests_cant": "real-valued data, random shuffles, unbounded training", "anchors": ["algorithms/linear_regression.go:Fit"]}
{"id": "C77", "title": "Full-batch training approaches the least-squares optimum", "statement": "In exact arithmetic, without decay and momentum, with a small enough learning rate and batches as large as the data, half the sum of squared errors after k epochs exceeds that of any weights v by at most |w0-v|^2/(2 lr k).", "quantifier": "every dataset, initial weights, shuffles and number of epochs", "why_tests_cant": "convergence is a statement about unboundedly many epochs", "anchors": ["algorithms/linear_regression.go:Fit"]}
{"id": "C78", "title": "Zero Epochs, LR and BatchSize get default values", "statement": "As documented, Epochs, LR and BatchSize left to 0 are replaced by default values, so that training with them works.", "quantifier": "every dataframe", "why_tests_cant": "no test leaves them to 0", "anchors": ["algorithms/linear_regression.go:LinRegTrainParams"]}
{"id": "C79", "title": "Drop removes exactly the named columns", "statement": "After Drop(cols) the columns named in cols, of any type, and their string marks are gone; all other columns, marks and rows are unchanged; unknown names are ignored; dataframes that do not share df's structure are unchanged.", "quantifier": "every dataframe and list of names", "why_tests_cant": "all combinations of types and names", "anchors": ["dataframe/raw_data.go:Drop"]}
{"id": "C80", "title": "Alloc* adds empty columns", "statement": "AllocInts, AllocFloats, AllocBools, AllocObjects and AllocStrings give the dataframe a column of NumRows zero values (marked as string for AllocStrings) for each name, and change no other column.", "quantifier": "every dataframe, view, type and list of names", "why_tests_cant": "all combinations; views", "anchors": ["dataframe/raw_data.go:AllocInts", "dataframe/raw_data.go:AllocFloats", "dataframe/raw_data.go:AllocBools", "dataframe/raw_data.go:AllocObjects", "dataframe/raw_data.go:AllocStrings"]}
{"id": "C81", "title": "PrintHead prints the first rows of every column", "statement": "PrintHead(n,f) prints, by type and sorted by name, one line per column with the first n visible rows (all rows if n is negative or too large), and panics exactly if a string column without encoding holds a shown object that is not a string.", "quantifier": "every dataframe, n and format", "why_tests_cant": "all dataframes; output is not tested", "anchors": ["dataframe/print.go:PrintHead", "dataframe/print.go:printObject"]}
{"id": "C82", "title": "PrintRecords prints one line per row", "statement": "PrintRecords prints for each of the first n visible rows its number, its storage position and the name (or shorthand) and value of every column, sorted by name.", "quantifier": "every dataframe, n, format and shorthands", "why_tests_cant": "all dataframes; output is not tested", "anchors": ["dataframe/print.go:PrintRecords", "dataframe/print.go:intFormat"]}
{"id": "C83", "title": "CheckConsistency is an exact check", "statement": "CheckConsistency returns true exactly if all columns have the same length, every string column is an object column and no object column that is not a string column holds a string, for every iteration order of the maps.", "quantifier": "all raw data and iteration orders", "why_tests_cant": "it is the checker the tests rely on", "anchors": ["dataframe/checks.go:CheckConsistency"]}
{"id": "C84", "title": "FromCSVFilePattern reads the regular files and reports errors", "statement": "FromCSVFilePattern fails if the pattern is bad or a match cannot be examined, returns nothing if no regular file matches, and otherwise, under every schedule of its workers, ends with an error exactly if some file cannot be read, else with the concatenation of all files in the order of arrival.", "quantifier": "all matches, contents, CPU limits and schedules", "why_tests_cant": "all interleavings and file system states", "anchors": ["dataframe/csv_parsing.go:FromCSVFilePattern", "dataframe/csv_parsing.go:processFileQueue"]}
{"id": "C85", "title": "Written CSV text is read back", "statement": "What the CSV writer puts into a file with a delimiter and line ends of its choice is read back by the CSV reader with the same delimiter as the same records, whatever the options Comment, LazyQuotes and TrimLeadingSpace. A missing line end after the last record makes no difference, and a header given as an option stands for a first line with these names.", "quantifier": "all lists of records of arbitrary bytes, all delimiters and reader options", "why_tests_cant": "fields with quotes, delimiters, line ends, blanks and comment characters in all combinations", "anchors": ["dataframe/csv_writing.go:To1CSV", "dataframe/csv_parsing.go:FromCSV"]}
{"id": "C86", "title": "FromCSV on arbitrary text", "statement": "For every text and all options, FromCSV returns an error or, under every schedule of its workers, a dataframe whose columns hold the cells of the text, exactly if every column that is not excluded has a name and every record has a cell for it; the latter always holds if the header comes from the file.", "quantifier": "all texts, options, worker counts and schedules", "why_tests_cant": "all texts and interleavings", "anchors": ["dataframe/csv_parsing.go:FromCSV", "dataframe/csv_parsing.go:toNativeTypes"]}
{"id": "C87", "title": "No data race in the worker pools", "statement": "In no schedule do two workers of HashStringsView, Scaler.Fit, FloatImputer.Fit, OneHotEncoder.Fit, Scaler.TransformInplace (columns not sharing storage) or OneHotEncoder.TransformView access the same cell of a column, or the same map of the encoder being fitted, at the same time with one of the accesses a write; for TransformInplace this fails if two columns share storage.", "quantifier": "all dataframes, worker counts, queue orders and interleavings", "why_tests_cant": "the race detector only sees the schedules that happen in a test run", "anchors": ["dataframe/view.go:HashStringsView", "preprocessing/scaler.go:workerTransforms", "preprocessing/one_hot.go:workerTransforms", "preprocessing/one_hot.go:55-128", "preprocessing/float_imputer.go:workerFits"]}
{"id": "C88", "title": "Fitted models survive JSON", "statement": "json.Marshal of a fitted Scaler, FloatImputer, HashEncoder, OneHotEncoder, AutoPreprocessor or LinearRegressor succeeds exactly if all its numbers are finite, and json.Unmarshal of the text gives a model that transforms and predicts as before, provided the column names are valid UTF-8; the options needed to fit again are not kept.", "quantifier": "all fitted models, column names (bytes) and numbers, all dataframes to fit and transform", "why_tests_cant": "texts, names and numbers are unbounded", "anchors": ["preprocessing/scaler.go:Scaler", "preprocessing/float_imputer.go:FloatImputer", "preprocessing/one_hot.go:OneHotEncoder", "preprocessing/auto_preprocessor.go:AutoPreprocessor", "algorithms/linear_regression.go:LinearRegressor", "examples/linreg.go:main"]}
{"id": "C89", "title": "PrintSummary", "statement": "PrintSummary leaves the dataframe as it is and prints, for each type, the sorted names of its columns (strings apart from other objects), the shared columns, whether the structure is shared, the number of rows, the CPU limit and, for a row-wise view, the number of its rows and of those of the data.", "quantifier": "all dataframes", "why_tests_cant": "names and sizes are unbounded", "anchors": ["dataframe/print.go:PrintSummary"]}
{"id": "C90", "title": "The experiment of examples/linreg.go", "statement": "For every dataframe and all flags, random numbers and worker counts: the preprocessor and the regressor come from the training rows alone, the test rows are prepared and predicted with them after being written to and read from JSON, the printed MAE compares the predictions with the target column of the test rows as it was in the data, and the dataframe is left as it was; the run panics exactly for parameters that leave no test row, no training batch or no finite model.", "quantifier": "all dataframes with distinct rows, shuffles, ratios, flags, training parameters, BLAS summation orders", "why_tests_cant": "whether a test row influences training cannot be seen from results; dataframes and random numbers are unbounded", "anchors": ["examples/linreg.go:main", "dataframe/view.go:SplitTrainTestViews", "preprocessing/auto_preprocessor.go:FitTransform", "algorithms/linear_regression.go:Predict", "algorithms/evaluation.go:MAE"]}
{"id": "C91", "title": "Floats are written and read exactly", "statement": "Every float64 that To1CSV writes or that a fitted model stores in JSON is read back as the same float64 (NaN, infinities and negative zero included in CSV); the decimal written has as few digits as possible, at most 17, and is the closest such decimal (the even one of two); underscores are read over exactly where each stands between two digits; any decimal number with an exponent below 100000 is read as the nearest float64, ties to even, or is an error if it is too large. Hence a float column written to CSV is inferred as a float column again exactly if one of its values is not an int64 and not written like a missing value, and only NaN is.", "quantifier": "all float64, all decimal texts of any length", "why_tests_cant": "there are 2^64 floats and unboundedly many texts; rounding is at its worst where tests do not look", "anchors": ["dataframe/csv_writing.go:To1CSV", "dataframe/csv_parsing.go:isFloat", "dataframe/csv_parsing.go:toFloat", "preprocessing/scaler.go:Scaler"]}
{"id": "C92", "title": "The program examples/linreg.go from its file to the error", "statement": "For every CSV file with a numeric target column and another numeric column, every comma, excluded columns, worker schedule, shuffle and training parameters: reading the file ends, a column is a float column exactly if all its cells except \"\", \" \", \"NA\" and \"-\" are numbers for strconv and holds those numbers rounded to the nearest float64 (NaN for the blank cells), all other columns are categories, and the MAE is that of the predictions for the test rows of the file by models that come from its training rows alone; main panics exactly for parameters that leave no test row, no training batch or no finite model.", "quantifier": "all file contents, delimiters, excluded columns, CPU limits, schedules of the CSV workers, map iteration orders, shuffles, split ratios, equal flags, training parameters and inner products", "why_tests_cant": "The program is only ever run by hand on one file; the result depends on the text of the file through eight subsystems.", "anchors": ["examples/linreg.go:50-119", "dataframe/csv_parsing.go:165-240", "dataframe/raw_data.go:108-147"]}
{"id": "C93", "title": "What the assertions of the test suite accept", "statement": "An assertion of utils/asserts.go passes exactly if the two values are equal (as sets where the order does not matter, up to 0.01 for floats), and it returns false exactly if it makes the test fail.", "quantifier": "all strings, ints, bools, float64 numbers and slices, nil and shared storage included", "why_tests_cant": "The assertions are what the tests rely on and are not tested themselves.", "anchors": ["utils/asserts.go:8-123", "utils/utils.go:52-68"]}
{"id": "C94", "title": "Writing a dataframe to several files", "statement": "ToCSVDir cuts the dataframe into consecutive pieces of ceil(rows/files) rows, writes each to its own file as the bytes of a CSV file with the header, leaves all other files alone, and fails exactly if a file cannot be created or the delimiter is not allowed; after a failure the files up to that one are empty.", "quantifier": "all dataframes and views, delimiters, line ends, markers, MinRowsPerFile, CPU limits, path prefixes, disk contents, sets of paths that can be created, map iteration orders", "why_tests_cant": "No test calls ToCSVDir; which rows go to which file and what happens after a failed creation needs all sizes and all disks.", "anchors": ["dataframe/csv_writing.go:144-194", "dataframe/view.go:162-190"]}
{"id": "C95", "title": "A directory of CSV files reads back as what was written", "statement": "If ToCSVDir wrote to an empty directory, FromCSVFilePattern on dir/*.csv gives the same columns, piece by piece in the order in which the files arrive. In general it gives nothing exactly if no file matches and an error exactly if a matching file cannot be read.", "quantifier": "all dataframes whose cells survive CSV in each file, all delimiters, markers, numbers of files, arrival orders and worker schedules", "why_tests_cant": "The result depends on the number of files, on the schedule and on the types inferred per file.", "anchors": ["dataframe/csv_writing.go:144-194", "dataframe/csv_parsing.go:245-316", "dataframe/raw_data.go:108-147"]}
{"id": "C96", "title": "linreg.go writes its test set", "statement": "The files in outdir contain the rows of the test set with their predictions, and reading them back gives the test set.", "quantifier": "all runs of the program (C92): files, schedules, shuffles, ratios, parameters, disks", "why_tests_cant": "The example is never run by a test and the output is not looked at.", "anchors": ["examples/linreg.go:121-135", "dataframe/csv_writing.go:122-136"]}
{"id": "C97", "title": "Concurrent writing does not depend on the schedule", "statement": "Whatever the interleaving of the goroutines of ToCSVs, it ends, each writer receives exactly the header and rows of its part, the error returned is that of running them one after the other, and the slice of errors is read only after the last write to it.", "quantifier": "all dataframes and views, numbers of writers, failing writers, map iteration orders, all interleavings of the goroutines with the caller", "why_tests_cant": "Tests run a few schedules on one machine; a lost error or mixed lines would show up only under some of them.", "anchors": ["dataframe/csv_writing.go:111-142", "dataframe/csv_writing.go:36-109"]}
{"id": "C98", "title": "Printed floats", "statement": "PrintHead and PrintRecords print each float rounded to the requested number of decimals, ties to even, with the sign of the float and without superfluous zeros; two floats further apart than one unit of the last decimal are printed differently.", "quantifier": "all float64 including NaN, infinities and negative zero, all precisions, all dataframes and views, the formats %f and %.Nf and the default", "why_tests_cant": "Tests do not look at what is printed, and rounding errors show up on few numbers only.", "anchors": ["dataframe/print.go:56-126", "dataframe/print.go:128-174", "examples/linreg.go:119"]}
{"id": "C99", "title": "TransformInplace as TransformView", "statement": "Applying TransformInplace of Scaler or FloatImputer to a view does what TransformView is documented to do: the view has the transformed columns and the dataframe is not changed.", "quantifier": "all dataframes and views, fitted scalers and imputers, iteration orders", "why_tests_cant": "Whether memory is shared depends on how the dataframe was made; tests look at few.", "anchors": ["preprocessing/interfaces.go:26-49", "dataframe/view.go:394-415", "preprocessing/scaler.go:130-150", "preprocessing/float_imputer.go:94-105"]}
{"id": "C100", "title": "Data identifiers reveal shared data", "statement": "The data UID that PrintUIDs and the debug mode print lists the positions of the bits of a uint64, from which it can be recovered; whenever two dataframes share a cell, their data UIDs have a bit in common, however they were made from each other.", "quantifier": "all identifiers, random numbers, dataframes and views, chains of View, ColumnView, DetachedView, ShallowCopy, Copy, HashStringsView and TransferRawDataFrom", "why_tests_cant": "UIDs are random and only looked at while debugging; whether two of them must overlap depends on the whole history.", "anchors": ["dataframe/raw_data.go:60-81", "dataframe/raw_data.go:178-192", "dataframe/raw_data.go:336-344", "dataframe/view.go:89-96", "dataframe/view.go:361-376"]}
{"id": "C101", "title": "The files of ToCSVDir are numbered in the order of the rows", "statement": "ToCSVDir writes to min(MaxCPU, 1+rows/MinRowsPerFile) files called prefix01.csv, prefix02.csv, ..., each with at least MinRowsPerFile rows; sorting the names, as filepath.Glob does, gives the order of the rows.", "quantifier": "all numbers of rows, CPU limits, MinRowsPerFile and prefixes", "why_tests_cant": "The width of the numbers changes at 10 and 100 files; tests never write that many.", "anchors": ["dataframe/csv_writing.go:ToCSVDir", "dataframe/csv_writing.go:13-21"]}
{"id": "C102", "title": "TransformView allocates what it transforms and shares the rest", "statement": "TransformView of HashEncoder, OneHotEncoder and AutoPreprocessor returns a dataframe whose transformed columns are stored in newly allocated memory, shared with no existing dataframe, while every other column is stored in the very cells of the argument.", "quantifier": "all dataframes and views, existing dataframes, fitted preprocessors, iteration orders", "why_tests_cant": "Which memory a column lives in cannot be seen from its values; it shows only when one of the dataframes is written to later.", "anchors": ["preprocessing/interfaces.go:26-39", "preprocessing/hash_encoder.go:36-38", "preprocessing/one_hot.go:201-224", "preprocessing/auto_preprocessor.go:146-175"]}
{"id": "C103", "title": "The dataframes of the test suite have columns of every type", "statement": "fillBlanks, which completes the dataframes of the test suite, keeps the columns, marks and encoding of its builder and adds, with as many rows, a column of ints, bools, floats, strings or other objects exactly where there is none, so that every type occurs; it panics exactly if the column of strings or objects it would add is already there (and has rows).", "quantifier": "all sequences of calls on a builder whose columns have the same length, all map iteration orders", "why_tests_cant": "It is part of the tests: nothing checks that the dataframes they run on have all types of columns.", "anchors": ["dataframe/builder.go:116-163"]}
{"id": "C104", "title": "View-returning functions do not copy data", "statement": "None of the functions README.md lists as view-returning allocates or writes a cell of a column, and the columns of what they return are stored where they were; the exceptions are HashStringsView, which allocates the columns it hashes, and DetachedView, which allocates the columns to detach and no others.", "quantifier": "all dataframes and views (of any state of memory), all arguments, random numbers and sorting functions", "why_tests_cant": "Memory that is allocated does not show in results; README.md guarantees it for all sizes.", "anchors": ["README.md:15-36", "dataframe/view.go:24-430", "dataframe/dataframe.go:108-120", "dataframe/concat.go:109-152"]}
{"id": "C105", "title": "Writing a column and setting its values one by one", "statement": "Overwrite on an existing column does what the loop of Set calls in its comment does; the loop that replaces every value by a function of it applies the function to each record once.", "quantifier": "all dataframes and views (with repeated rows too), columns of all types, lists of values of any length, functions", "why_tests_cant": "Views can show a record several times and the lists can have any length; the equivalence in the comments is claimed for all of them.", "anchors": ["dataframe/inplace.go:80-209", "dataframe/README.md:70-77", "dataframe/README.md:187-204", "dataframe/column_access.go:147-194"]}
{"id": "C106", "title": "Filtering with masks and with indices", "statement": "The filtering loops of the documentation with EmptyMask and MaskView, with IndexView and with ZeroMask give the rows that satisfy the condition, in order, in all columns, and leave all other dataframes as they are; masks asked for are independent of each other after ThreadSafeMasking(true), also for views made afterwards.", "quantifier": "all dataframes and views, columns, conditions, states of the recycled mask", "why_tests_cant": "The recycled mask holds what earlier filters left there, for any sequence of earlier calls.", "anchors": ["dataframe/README.md:156-184", "dataframe/dataframe.go:40-93", "dataframe/view.go:73-87", "dataframe/view.go:24-40"]}
{"id": "C107", "title": "Preprocessors can be run on dataframes with extra columns", "statement": "Once trained, a preprocessor gives the same values for the columns it was trained on, and for the columns it makes of them, whatever other columns the dataframe has, and it leaves the others as they are.", "quantifier": "all trained preprocessors, all pairs of dataframes that agree on the training columns, all other columns", "why_tests_cant": "What extra columns there are, of which types, names and storage, is unbounded.", "anchors": ["preprocessing/README.md:18-43", "preprocessing/float_imputer.go:94-105", "preprocessing/scaler.go:116-168", "preprocessing/hash_encoder.go:29-38", "preprocessing/one_hot.go:162-226", "preprocessing/auto_preprocessor.go:146-175"]}
{"id": "C108", "title": "The documented order of the functions that copy", "statement": "View < TransferRawDataFrom < ShallowCopy < Unshare < DetachedView < Copy: on any dataframe and for any column names each of these functions allocates at most as many cells for columns as the next one; the first three allocate none, Copy one for every visible value; Unshare of everything leaves nothing to be copied by another Unshare.", "quantifier": "all heaps, well-formed dataframes and views, lists of column names", "why_tests_cant": "Tests compare values, not how much memory an operation takes; the order has to hold for every state of the sharing flags.", "anchors": ["dataframe/README.md:120-130", "dataframe/raw_data.go:178-225", "dataframe/raw_data.go:336-364", "dataframe/dataframe.go:108-187", "dataframe/view.go:394-414"]}
{"id": "C109", "title": "SharedIndex leads to the value in the backing data", "statement": "For every column and row of a dataframe or view, Get(row) is the element SharedIndex(row) of the slice that FloatData, IntData, BoolData or ObjectData returns, Set(row, v) assigns to this element, and an assignment to it is seen in exactly those rows, of all dataframes with this data, that have this index; a missing column gives a nil slice; EmptyMask is the beginning of GetMask unless masking is thread-safe.", "quantifier": "all heaps, well-formed dataframes and views, columns, rows and values", "why_tests_cant": "No test calls these functions, and the statement is about all views that share the data.", "anchors": ["dataframe/column_access.go:114-119", "dataframe/column_access.go:145-194", "dataframe/dataframe_internals.go:7-33", "dataframe/dataframe.go:75-81"]}
{"id": "C110", "title": "VecDenseCopy copies, VecDense of contiguous data does not", "statement": "For every float column with at least one row, VecDenseCopy returns a vector with the values of the column that can be changed in any way without changing any dataframe; VecDense returns such a copy for dataframes with altered indices, and otherwise the column itself, so that setting an element is Set; without rows both panic.", "quantifier": "all heaps, well-formed dataframes and views, columns, sequences of changes to the vector", "why_tests_cant": "Tests read vectors, they do not write to them and look at all other dataframes.", "anchors": ["dataframe/column_access.go:121-142"]}
{"id": "C111", "title": "Accesses stay valid while values are written", "statement": "A ColumnAccess made before any sequence of Set calls, of Overwrite functions on existing columns and of changes to shared vectors reads and writes the same cells as one made afterwards.", "quantifier": "all heaps, dataframes, accesses and sequences of writes on any dataframes", "why_tests_cant": "Accesses are made right before use in tests; the statement is about all interleavings with other writes.", "anchors": ["dataframe/column_access.go:44-108", "dataframe/column_access.go:145-194", "dataframe/inplace.go:88-209"]}
{"id": "C112", "title": "Hashing and one-hot encoding separate strings", "statement": "With both encoders fitted to the same training data, two rows whose strings occur in the training data get the same boolean columns if and only if the strings have the same hash. No string is taken for a missing value. With a separate category for missing values (or one if seen), missing strings differ from all strings of the training data; with a separate category for unknown values, so do strings whose hash is not in the training data.", "quantifier": "all training and other dataframes with the same string columns and at least one other column, all options, map orders, columns and rows", "why_tests_cant": "The tests of the one-hot encoder use integers, and the hash encoder has no test; that no hash is -1 cannot be tested for all strings.", "anchors": ["preprocessing/README.md:57-62", "preprocessing/hash_encoder.go:29-39", "preprocessing/one_hot.go:55-225", "dataframe/view.go:327-380"]}
{"id": "C113", "title": "Parts can be joined again", "statement": "RowConcat of the parts returned by SplitView, SplitNView or SplitTrainTestViews never fails and shows the table that was split, in memory of its own, but for the text encoding; after ShuffleView, the same rows in another order.", "quantifier": "all dataframes, batch sizes and test ratios", "why_tests_cant": "The tests split and concatenate separately.", "anchors": ["dataframe/view.go:137-247", "dataframe/concat.go"]}
{"id": "C114", "title": "Views of views", "statement": "IndexView of an IndexView selects the rows at the composed positions; SliceView of a SliceView is the slice with shifted bounds; rows and columns can be selected in either order; ColumnView of a ColumnView keeps the columns named in both.", "quantifier": "all dataframes, indices within range, bounds and column names", "why_tests_cant": "The tests look at views of views only for a few positions.", "anchors": ["dataframe/view.go:24-128"]}
{"id": "C115", "title": "Rows stay together", "statement": "Whatever sequence of views, copies, parts and row concatenations is made of a dataframe, each row of the result shows, in all its columns, values of one row of the dataframe. Values written to a new column on the way (such as predictions) stay beside the values of their rows in everything made afterwards.", "quantifier": "all dataframes and all finite sequences of View, IndexView, SliceView within bounds, MaskView, ColumnView, ShuffleView, SampleView, SplitNView, SplitView, SplitTrainTestViews, SortedView, TopView, ReverseView, ResetIndexView, DetachedView, ShallowCopy, Copy and RowConcat", "why_tests_cant": "The tests combine at most two or three views; the README relies on metadata staying aligned in all cases.", "anchors": ["dataframe/README.md:134-152", "dataframe/view.go:13-440", "dataframe/dataframe.go", "dataframe/concat.go"]}
{"id": "C116", "title": "ShuffleView and SampleView are fair", "statement": "If the draws of rand.Shuffle (one number in 0..i for each position i) are equally likely, so are all orders of the rows in ShuffleView and all selections of m rows in SampleView: of the n! sequences of draws exactly one gives each order, and exactly (n-m)! give each ordered selection of m distinct rows.", "quantifier": "all dataframes with distinct row indices, all orders of their rows and all ordered selections of distinct rows", "why_tests_cant": "Tests of random functions can only look at a few outcomes; fairness is about the number of draws behind every outcome.", "anchors": ["dataframe/view.go:130-160"]}
{"id": "C117", "title": "One-hot encoding can be undone", "statement": "Reading, in each row, the category whose flag is set (-1 when there is none) gives back every category of the training data, negative integers other than -1 included. It gives back the whole column when missing values have a flag of their own and unknown categories are refused, and the training data itself under every policy for missing values but ImputeWithMostFrequent.", "quantifier": "all training data, all dataframes encoded later, all options and all orders in which maps are visited", "why_tests_cant": "The inverse transformation is a TODO in the code, so no test covers it; the claim is about all columns and policies.", "anchors": ["preprocessing/one_hot.go:56-107", "preprocessing/one_hot.go:157-220", "preprocessing/one_hot.go:249-252", "dataframe/README.md:29-30"]}
{"id": "C118", "title": "Full-batch training does not depend on the order of the rows", "statement": "When a batch holds all rows, the weights after any number of epochs depend neither on the order of the rows in the training data nor on the random shuffles, in exact arithmetic. With smaller batches they do.", "quantifier": "all data, numbers of epochs, learning rates, decays, momenta and initial weights, and all shuffles of each epoch", "why_tests_cant": "The only training test checks one data set with random shuffles; independence of the shuffles is about all of them.", "anchors": ["algorithms/linear_regression.go:60-170"]}
{"id": "C119", "title": "Preprocessing twice is preprocessing once", "statement": "Imputing missing values a second time changes nothing, and neither does fitting and applying a second scaler to data that was standardised, centered, or scaled when not constant, in exact arithmetic.", "quantifier": "all dataframes and fallback values; all columns of numbers and missing values", "why_tests_cant": "Tests apply each preprocessor once.", "anchors": ["preprocessing/scaler.go:42-150", "preprocessing/float_imputer.go:51-105"]}
{"id": "C120", "title": "How MSE and MAE compare and combine", "statement": "In exact arithmetic the square of the MAE is at most the MSE; the errors of a dataframe are the means of the errors of its parts, weighted by their sizes; they do not depend on the order of the rows; and what LinearRegressor minimises is the MSE of its predictions, up to a constant factor.", "quantifier": "all vectors of predictions and targets of the same length, all features and weights", "why_tests_cant": "The functions have no test; inequalities and decompositions quantify over all vectors.", "anchors": ["algorithms/evaluation.go:9-34", "algorithms/linear_regression.go:120-165"]}
{"id": "C121", "title": "Standardising does not depend on units", "statement": "Measuring a column in another unit (multiplying by a positive number and adding another) does not change what a fitted scaler with centering and scaling makes of it, and the inverse transformation returns values in the unit of the data. So the weights that LinearRegressor learns do not depend on the unit of the target, and its predictions are in that unit.", "quantifier": "all columns of numbers and missing values, all positive factors and all offsets", "why_tests_cant": "A test can try a few units.", "anchors": ["preprocessing/scaler.go:42-166", "algorithms/linear_regression.go:62-72"]}
{"id": "C122", "title": "Imputing the mean before standardising", "statement": "FloatImputer with the mean policy leaves no missing value and does not change the mean of a column. Standardising the imputed column gives 0 where values were missing and, elsewhere, what standardising the column with its missing values gives, times the square root of (number of rows / number of values present).", "quantifier": "all columns of numbers and missing values with at least one number", "why_tests_cant": "Tests look at the two preprocessors separately, on a few columns.", "anchors": ["preprocessing/float_imputer.go:51-105", "preprocessing/scaler.go:42-130"]}
{"id": "C123", "title": "Training is linear in the targets", "statement": "For fixed features and batches, the weights that the training loop arrives at are a linear function of the initial weights and the targets: a combination of targets (and initial weights) gives the same combination of the results. From zero weights, targets k times as large give weights k times as large.", "quantifier": "all sequences of batches, all parameters, weights and coefficients", "why_tests_cant": "A test can compare a few runs.", "anchors": ["algorithms/linear_regression.go:95-134"]}
{"id": "C124", "title": "Float64 statistics of whole numbers are correctly rounded", "statement": "On columns of whole numbers (with missing values) whose absolute values add up to at most 2^53, the float64 mean that the scaler and the imputer compute is the float64 nearest to the true mean, with a relative error of at most 2^-53; no error accumulates, so the order of the rows does not matter. The same holds for MSE and MAE when the squared or absolute errors add up to at most 2^53.", "quantifier": "all columns of whole numbers with sums up to 2^53, and missing values anywhere", "why_tests_cant": "Rounding depends on every bit of every value and on the order; tests compare with a tolerance.", "anchors": ["preprocessing/scaler.go:63-73", "preprocessing/float_imputer.go:54-64", "algorithms/evaluation.go:11-34"]}
{"id": "C125", "title": "Scaling keeps the order of values", "statement": "In float64, with all its rounding and overflow, a fitted scaler (standardising or min-max) never changes the order of two values of a column: x <= y implies that x is scaled to at most what y is scaled to, infinities included, provided that the fitted shift and factor are finite and the factor is not zero. So sorting, ranking and TopView give the same result on scaled data, up to ties.", "quantifier": "all float64 values, all columns, all fitted scalers with finite shift and finite non-zero factor", "why_tests_cant": "Rounding depends on every bit; monotonicity is about all pairs of values.", "anchors": ["preprocessing/scaler.go:42-130"]}
{"id": "C126", "title": "How far standardised values can be from zero", "statement": "In exact arithmetic, a column of n values that are not missing (standardised with centering and scaling) has no value with a square above n - 1, for every n there is a column reaching that bound, and at most n / k^2 values are at distance k or more from 0. So a rule such as 'more than three deviations is an outlier' can never fire on ten or fewer rows.", "quantifier": "all columns of finite and missing values, all lengths, all thresholds k > 0", "why_tests_cant": "A bound on every value of every column; tests see a few columns.", "anchors": ["preprocessing/scaler.go:42-130"]}
{"id": "C127", "title": "Constant predictions and errors in the unit of the target", "statement": "In exact arithmetic, the MSE of predicting the constant a is the variance of the target plus (a - mean)^2, so the mean that FloatImputer stores is the best constant and the only best one. Predicting 0 for a standardised target has MSE 1. When predictions for a standardised target are transformed back by InverseTransformInplace, as LinearRegression.Predict does, their MSE is that on the standardised target times the variance of the target, and their MAE that times its standard deviation.", "quantifier": "all targets that are not constant, all predictions, all constants", "why_tests_cant": "Identities over all columns of real numbers.", "anchors": ["algorithms/evaluation.go:9-37", "preprocessing/scaler.go:42-168", "preprocessing/float_imputer.go:50-91", "algorithms/linear_regression.go:171"]}
{"id": "C128", "title": "Training does not depend on units", "statement": "In exact arithmetic, replacing the target y by a*y + b with a > 0 (another unit of measurement) and training with the same parameters, initial weights and batches gives predictions that are the old ones in the new unit, a*u + b: Fit standardises the target and Predict transforms back. A feature that is standardised beforehand can be measured in another unit as well, in the training data and in the new data alike: the scaler fitted to the training data in that unit maps every value in that unit to the same number.", "quantifier": "all data with a target that is not constant, all parameters, initial weights, batches and epochs, all units with a > 0, all inner products that are exact", "why_tests_cant": "Relates two complete training runs, for all data and parameters.", "anchors": ["algorithms/linear_regression.go:56-175", "preprocessing/scaler.go:42-168"]}
