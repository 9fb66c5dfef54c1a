(** The assertions of the test suite: C93. *)
From Coq Require Import Reals.
From Verif Require Import M_Asserts.
From Verif Require Import P_Exec.
From stdpp Require Import strings list.
From Verif Require Import Spec_Json Spec_Strconv Spec_Asserts P_AssertsMain M_Asserts.
Local Open Scope nat_scope.

(** C93 What passes and what fails a test. *)
Theorem C93_scalars : (forall actual expected, asserts (assert_string_equals actual expected) (actual = expected)) /\
  (forall actual expected, asserts (assert_string_not_equals actual expected) (actual <> expected)) /\
  (forall actual expected, asserts (assert_int_equals actual expected) (actual = expected)) /\
  (forall actual expected, asserts (assert_int_not_equals actual expected) (actual <> expected)) /\
  (forall value, asserts (assert_true value) (value = true)) /\ (forall value, asserts (assert_false value) (value = false)) /\
  (forall (E : Type) (err : option E), asserts (assert_no_error err) (err = None)).
Proof. exact C93_scalars_main. Qed.
Print Assumptions C93_scalars.
Theorem C93_slices : (forall actual expected, coherent actual expected -> asserts (assert_string_slice_equals actual expected true) (equal_slices actual expected)) /\
  (forall actual expected, coherent actual expected -> asserts (assert_int_slice_equals actual expected) (equal_slices actual expected)) /\
  (forall actual expected, coherent actual expected -> asserts (assert_int_slice_not_equals actual expected) (~ equal_slices actual expected)) /\
  (forall actual expected, coherent actual expected -> asserts (assert_bool_slice_equals actual expected) (equal_slices actual expected)).
Proof. exact C93_slices_main. Qed.
Print Assumptions C93_slices.
Theorem C93_unordered : (forall actual expected, asserts (assert_string_slice_equals actual expected false) (forall s, s ∈ gs_list actual <-> s ∈ gs_list expected)) /\
  (forall l ord, ord ≡ₚ map_to_list (to_string_set l) -> NoDup (string_set_keys ord) /\ forall s, s ∈ string_set_keys ord <-> s ∈ l).
Proof. exact C93_unordered_main. Qed.
Print Assumptions C93_unordered.
Theorem C93_float : forall actual expected : f64, is_f64 actual -> is_f64 expected ->
  asserts (assert_float_equals actual expected) (near actual expected).
Proof. exact C93_float_main. Qed.
Print Assumptions C93_float.
Theorem C93_tolerance : forall actual expected : f64, is_f64 actual -> is_f64 expected -> finite actual -> finite expected ->
  (Rabs (real_of actual - real_of expected) <= 1 / 100 -> near actual expected)%R /\
  (near actual expected -> Rabs (real_of actual - real_of expected) <= 1 / 100 + (Rabs (real_of expected) + 1) / 2 ^ 52)%R.
Proof. exact C93_tolerance_main. Qed.
Print Assumptions C93_tolerance.
Theorem C93_float_slice : forall actual expected : gslice f64, Forall is_f64 (gs_list actual) -> Forall is_f64 (gs_list expected) -> coherent actual expected ->
  let r := assert_float_slice_equals actual expected in
  (* the test goes on without errors *)
  (r.2 = 0 <-> Forall2 near (gs_list actual) (gs_list expected)) /\
  (* what is returned *)
  (r.1 = true <-> (nil_slice actual <-> nil_slice expected) /\
     (gs_list actual = gs_list expected /\ (exists p l, actual = GSlice p l /\ expected = GSlice p l) \/
      Forall2 (fun x y => SFeqb x y = true) (gs_list actual) (gs_list expected))).
Proof. exact C93_float_slice_main. Qed.
Print Assumptions C93_float_slice.
Example C93_case :
  is_f64 (f64_div f64_one (f64_of_Z 128)) /\ near (f64_div f64_one (f64_of_Z 128)) f64_zero /\ ~ near (f64_div f64_one (f64_of_Z 64)) f64_zero /\
  asserts (assert_string_slice_equals (GSlice 1 ["a"; "b"]) (GSlice 2 ["b"; "a"]) false) True /\
  asserts (assert_string_slice_equals (GSlice 1 ["a"; "b"]) (GSlice 2 ["b"; "a"]) true) False /\
  asserts (assert_int_slice_equals (GSlice 1 [1; 2]%Z) (GSlice 2 [1; 2]%Z)) True.
Proof. exact C93_check_main. Qed.
(** NaN is accepted for any number. *)
Theorem C93_nan_refuted : exists actual expected : f64, is_f64 actual /\ is_f64 expected /\ actual <> expected /\ assert_float_equals actual expected = (true, 0) /\ assert_float_equals expected actual = (true, 0).
Proof. exact C93_nan_refuted_main. Qed.
Print Assumptions C93_nan_refuted.
(** Repetitions are ignored without order. *)
Theorem C93_repeated_refuted : exists actual expected : gslice string, length (gs_list actual) <> length (gs_list expected) /\
  assert_string_slice_equals actual expected false = (true, 0).
Proof. exact C93_repeated_refuted_main. Qed.
Print Assumptions C93_repeated_refuted.
(** AssertFloatSliceEquals returns false although the test does not fail. *)
Theorem C93_float_slice_refuted : exists actual expected : gslice f64, coherent actual expected /\ assert_float_slice_equals actual expected = (false, 0).
Proof. exact C93_float_slice_refuted_main. Qed.
Print Assumptions C93_float_slice_refuted.
(** An empty slice differs from nil. *)
Theorem C93_empty_refuted : exists actual expected : gslice Z, gs_list actual = gs_list expected /\ assert_int_slice_equals actual expected = (false, 1).
Proof. exact C93_empty_refuted_main. Qed.
Print Assumptions C93_empty_refuted.
