# Formal model of rom1mouret/ml-essentials in Rocq

## What is modelled

The Go code under /repo is read as text and re-written function by function as
total Gallina functions. The files are under `rocq/theories`:

* `M_*.v` — the model (definitions only; each definition cites file and lines).
* `Spec.v` — a small, independent specification: abstract tables (number of
  rows, columns as lists of values, string marks) and the textbook operations
  on them.
* `P_*.v` — lemmas and proofs.
* `Prop_*.v` — the property theorems only, each closed by `exact`, with
  `Print Assumptions` and non-vacuity examples.

### Memory model

A heap has four components: column arrays, mask arrays, *map objects* (the four
Go maps objects/floats/bools/ints of a RawData always travel together and are
one object keyed by (type, name)) and *header objects* (the Go map behind a
ColumnHeader). A `DataFrame` value holds references into the heap exactly where
the Go struct holds a reference type, so aliasing between a view and its parent
is faithful. Go slices are (array, offset, length, capacity). A Go panic is the
outcome `Panic`; error returns are values. The heap after a panic is not
modelled (no property speaks about it). Index arrays (`indices`) are never
written after construction in the code, so they are modelled as immutable
slices (backing list up to the capacity plus a length). The data UIDs are modelled
beside the heap in M_Uid; structure UIDs and debug printing
are left out.

### Numbers

`int` is `Z` (wrap-around is written explicitly where a property is about it:
HashIntSlice, FNV hashes). `float64` is Coq's `spec_float` with precision 53 and
emax 1024, so rounding, NaN and infinities are exact and executable; statements
"in exact arithmetic" are about the same model functions instantiated with the
real numbers (the functions are written once, over a record of arithmetic
operations).

### Runtime nondeterminism

Random draws, map iteration order (where observable), results of unstable sorts,
number of CPUs and goroutine interleavings are explicit arguments or transition
relations; theorems quantify over all of them.

## Properties

| id | modelled as | proof |
|----|-------------|-------|
| C01–C14 | view.go functions on the heap model | equality of the abstract table of the result with the spec operation on the abstract table of the input; all other dataframes keep their abstract table |
| C03, C10 | same | the documented statement is false of the code: refutation by witness, plus the statement that does hold |
| C15–C19 | cell-level reads/writes, Unshare, Copy, structural operations | frame lemmas over the heap; refutations for Drop/AllocStrings/Rename on views (C18) and the aliasing of the shared set (C19) |
| C20, C21, C23 | state machine over any list of operations on any number of dataframes | invariant by induction over the history |
| C22 | Overwrite* | induction over the index list |
| C24 | HashStringsView with FNV-1a on bytes | functional spec + pool theorem for schedules |
| C25–C29 | conversions, iterators, batching | loop invariants; C28 by induction over the history of batches |
| C30–C34 | concat.go, Merge* | spec equality, refutations for the unchecked cases |
| C35–C40 | headers, builder, conversions, Rename, Encode | spec equality; induction over call sequences; codecs as arguments |
| C41–C43 | worker pool as a transition system; worker count arithmetic | invariants over all reachable states, measure for termination |
| C44–C49 | CSV parsing/writing over lists of records (strconv is modelled by concrete parsers) | functional specs, round trip |
| C50–C54 | scaler and imputer over abstract arithmetic | real analysis on finite sums, lists |
| C55–C58 | one-hot and auto-preprocessor | functional specs, case analysis over policies |
| C59–C61 | linear regression and metrics over abstract arithmetic | algebra on real vectors |
| C62–C65, C68 | utils, print | arithmetic |
| C66, C67, C69–C71 | slices, copies, iterators, merging | as C01–C34 |
| C72–C74 | scaler on constant columns, hash encoder, TransformedColumns | as C50–C58 |
| C75–C77 | the training loop over the reals, for any exact inner product | descent lemma and telescoping sum over epochs; induction over the list of batches |
| C79, C80, C83 | Drop, Alloc*, CheckConsistency | frame lemmas, case analysis |
| C81, C82, C89 | the printed text as a string | equality with a specified text |
| C84 | FromCSVFilePattern as a whole | pool theorems, C71 |
| C85–C86 | the text of CSV files (byte-level encoding/csv) | reader automaton run over written text by induction; exact conditions; pool theorems |
| C87 | data races in the worker pools | footprints of the jobs, invariant over all interleavings |
| C88 | fitted models through encoding/json (byte level) | parser run over written text by induction; codecs composed field by field |
| C90 | examples/linreg.go from the dataframe to the printed error | composition of C07, C11, C58–C61 and C88 |
| C91 | strconv.ParseFloat, FormatFloat and JSON's float encoder | correct rounding from Flocq; minimality of the digits by monotonicity of rounding; texts by induction |
| C92 | examples/linreg.go from the bytes of its file to the printed error | C86, C91, C45 and C90 composed; the hypotheses of C90 derived from the cells |
| C94–C96 | ToCSVDir and FromCSVFilePattern on a disk; the end of examples/linreg.go | C46, C48, C84, C85 composed over a map from paths to bytes; index views traced through the program |
| C97 | the goroutines of ToCSVs as a transition system | invariant over all reachable states, measure for termination, equality with the sequential model |
| C98 | floats printed by fmt with %.Nf | correct rounding to decimals, texts characterised up to uniqueness |
| C99 | the recipe of preprocessing/interfaces.go for views | C53, C54 on detached columns; refutation for View |
| C100 | data UIDs | text by induction on the bits; every column of the result is new or that of the argument |
| C101 | names of the files of ToCSVDir | arithmetic; the order of all names with at most three digits by computation on the complete list |
| C102 | memory of the results of TransformView | each step leaves the map entries of the columns it does not touch and stores the others in arrays younger than the old heap; composition of such steps |
| C103 | the dataframes of the tests (fillBlanks) | the invariant of the builder (C37) through the five conditional additions |
| C104 | memory allocated by view-returning functions | a property of computations closed under bind: arrays unchanged, slices in maps only parts of old ones; counting of cells |
| C105 | Overwrite and loops of Set | both are the same sequence of writes when the lengths agree; for the loop with a function, an invariant counting how often each cell was visited |
| C106 | filtering loops of the documentation | invariant of the loop over the mask, then C04; independence from the allocation of masks; ThreadSafeMasking followed through every view-returning function |
| C107 | preprocessing with extra columns | the same writes for in-place transformations; for the others the table formulas of C24, C55 and C58 respect agreement on a set of columns |
| C108 | documented order of copying functions | cells allocated by Unshare, DetachedView and Copy counted over their loops |
| C109 | SharedIndex, dataframe_internals.go | unfolding, then the cells of C15 |
| C110, C111 | VecDense, VecDenseCopy with memory; accesses | fresh arrays extend the heap; writes keep the map objects |
| C112 | HashEncoder followed by OneHotEncoder | the hashed table of C73 put into the flags of C55; hashes are in 0 .. 2^63-2 |
| C113, C114 | splitting and joining, views of views | C09 and C11 put into C30; algebra of the table functions of Spec.v |
| C115 | sequences of views, copies and concatenations | induction over the sequence; alignment with the first dataframe is transitive |
| C116 | ShuffleView, SampleView | the loop is a bijection from sequences of draws to orders (positions above the loop index are final); counting by a bijection with the shuffles of the remaining rows |
| C117 | the inverse of one-hot encoding | the category table is injective and its names differ from those of the fallback columns |
| C118 | LinearRegressor.Fit with full batches | the gradient is a sum over the rows, invariant under permutations; epochs are compared one by one |
| C119 | FloatImputer and Scaler applied twice | the second fit gives the identity on the values present: mean 0, variance 1 |
| C120 | MSE, MAE and the objective of training | Cauchy-Schwarz; sums over appended and permuted lists |
| C121 | Scaler and units of measurement | mean and variance of affine images; the two fitted maps agree on corresponding values |
| C122 | FloatImputer followed by Scaler | sums over the filled column; the mean stays, the variance shrinks by the fraction present |
| C123 | the training loop as a function of the targets | one step is linear, induction over the batches |
| C124 | mean, MSE, MAE of whole numbers in float64 | partial sums are exact (Flocq), the quotient is rounded once |
| C125 | Scaler in float64 and the order of values | rounding is monotone, overflow clamps at 2^1024 |
| C126 | Scaler and outliers | Cauchy-Schwarz for the other values; counting the values that are far away |
| C127 | MSE, MAE, FloatImputer and the inverse of Scaler | sum of squares about any point; errors under the inverse affine map |
| C128 | LinearRegressor and units of measurement | C121 for the standardised target and for the way back; C60 in exact arithmetic |
| C93 | utils/asserts.go, what passes a test | case analysis; rounding error bounds from Flocq for the tolerance |
| C78 | documented defaults of LinRegTrainParams | refutation |

A property the code violates is marked `partial` in MANIFEST.json: the theorem
that holds carries the exact guard, and a `_refuted` theorem exhibits the
violation.

## Trusted base

1. Coq 8.16.1's kernel, including its virtual machine (`vm_compute` is used for
   concrete cases and refutation witnesses).
2. The axioms `Print Assumptions` lists. Every property theorem in `Prop_*.v` is
   followed by `Print Assumptions`, so a build prints the full list. All
   theorems not named here are "Closed under the global context". The axioms are
   those of the standard library's real numbers and nothing else:
   * `ClassicalDedekindReals.sig_forall_dec`, `ClassicalDedekindReals.sig_not_dec`,
     `FunctionalExtensionality.functional_extensionality_dep`: C50_standardised,
     C50_centered, C50_scaled, C51_minmax_partial, C52_inverse, C54_mean_exact,
     C60_exact_step, C60_gradient (without sig_not_dec), C61_documented_means,
     C72_constant_partial, C75_descent, C75_minimiser, C76_consistent,
     C77_convergence, C118_order, C119_standardised, C119_centered,
     C119_scaled_partial, C120_numbers, C120_compare, C120_parts, C120_order,
     C120_objective, C121_units, C121_back, C122_mean,
     C122_standardised, C123_linear, C123_scaled, C126_bound, C126_reached,
     C126_few, C126_ten_rows, C127_constant, C127_best, C127_zero,
     C127_back, C128_unit, C128_features; without sig_not_dec: C98_printed, C98_bound, C98_same,
     C98_apart, C98_head, C98_records_partial, C98_zero_refuted.
   * these and `Classical_Prop.classic` (through Flocq's theory of rounding or of
     comparisons): C11_train_test_partition, C12_sorted_view_sorts,
     C13_top_view_extremes, C20_step, C20_history_partial,
     C21_are_indices_altered, C54_no_nan_partial, C72_float64_partial, C88_fitted,
     C90_example_partial, C90_flags, C91_round_trip, C91_parse, C91_written,
     C91_ties, C91_json, C91_json_exact, C91_ints, C91_numbers, C91_csv_column,
     C91_long_exponent_refuted, C92_program, C93_float, C93_tolerance,
     C93_float_slice, C98_read, C98_exact, C113_train_test, C115_rows,
     C115_written, C124_mean, C124_errors, C124_converted, C124_large_refuted,
     C125_monotone, C125_fitted.
   No axiom is declared in this development.
3. The translation by hand of Go into Gallina, and the specifications
   (`Spec*.v`).

### Modelled, and how faithfully

Go file by Go file; "all" means every function the file exports and those they
call, except what is named.

| file | model | left out or simplified |
|------|-------|------------------------|
| dataframe/view.go, dataframe.go, column_access.go, inplace.go, conversions.go, concat.go, raw_data.go, column_header.go, checks.go | M_Heap, M_Frame, M_Encode, M_Build, M_Check, M_Uid (data UIDs), M_VecDense | structure UIDs and debug output; trivial getters; sort.Slice is an oracle that returns any permutation that is sorted for the given order; goroutines that write disjoint columns run one after the other (justified by the pool theorems C41–C43) |
| dataframe/builder.go | M_Build, M_Fill | – |
| dataframe/dataframe_internals.go | M_Internals | – |
| dataframe/row_iterators.go, float_batching.go, dense_gonum_batching.go | M_Batch | float32 conversion is one rounding (24 bits); mat.NewDense and mat.NewVecDense panic on empty data as gonum 0.8.2 does |
| dataframe/csv_parsing.go, csv_writing.go | M_Csv, M_CsvW, M_CsvText, M_Files, M_Pool, M_Writers | encoding/csv of Go 1.15 is modelled on bytes (M_CsvText) with single-byte delimiters, its reader as an automaton instead of line by line; character decoding before and after it is left out; strconv.ParseFloat/FormatFloat are parameters with the round-trip property where it is needed, and M_Strconv is the instance for which it is proved; ParseBool and ParseInt are modelled; a write fails or succeeds per flush by an oracle; x/text codecs are partial functions |
| dataframe/print.go | M_Print, M_Fixed, M_Fmt, M_Summary, M_Utils (GoodShortNames) | the structure ID is a parameter; what package fmt makes of a float, an address or a string used as format is a parameter; for floats and the formats "%f" and "%.Nf" M_Fixed is the instance, for names used as formats M_Fmt (doPrintf of Go 1.15 without arguments) |
| loops given in dataframe/README.md and in comments | M_Recipes | conditions and functions are parameters |
| preprocessing/*.go | M_Prep, M_OneHot, M_FitMaps (the maps filled by the workers of OneHotEncoder.Fit), M_Auto, M_Json | Verbose logging; which of several errors is returned |
| algorithms/*.go | M_Prep (metrics), M_LinReg, M_Json | Verbose; inner products of gonum's BLAS are parameters because the order of summation depends on the processor; AddScaledVec returns early for alpha = 0 as gonum 0.8.2 does |
| utils/utils.go, group_indexer.go, string_q.go | M_Utils, M_Frame, M_Pool, M_Asserts | one step of the pool's transition system is one channel operation or one call of the user's function |
| encoding/json as used on fitted models | M_Json | Go 1.15, on bytes: UTF-8, escapes, the number grammar, sorted map keys, null; decoding into a fresh variable; field names are matched exactly (Go also accepts other cases); nil and empty maps are both written as null; no depth limit; strconv's float formatting and parsing are parameters (law exact_numbers, proved for M_Strconv) |
| strconv as used on floats | M_Strconv | Go 1.15, on bytes: the grammar with underscores, hexadecimal numbers, infinities and NaN; integer arithmetic instead of the fast paths and of the cut after 800 digits |
| files and directories as used by csv_writing.go and csv_parsing.go | M_Output | a disk is a map from paths to bytes; which paths can be created is a parameter; filepath.Glob for patterns dir/*.csv only; no permissions, links or concurrent processes |
| examples/linreg.go | M_Example, M_Program, M_Outdir | flag parsing and printing are left out; an error of json.Unmarshal, which the code ignores, is a panic (proved not to happen) |
| utils/asserts.go | M_Asserts | the text of the messages; reflect.DeepEqual on slices and maps of Go 1.15 |

Further assumptions about Go: float64 arithmetic is IEEE 754 binary64 without
fused multiply-add (as on amd64); NaN has no payload and no sign; allocation
never fails; memory is sequentially consistent where no race exists (the pool
model has channel operations and atomic calls only); map iteration order is an
arbitrary permutation, chosen anew for each loop, given as an oracle argument;
math/rand returns arbitrary numbers of the documented range, given as oracle
arguments.
