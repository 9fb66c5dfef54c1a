(** The assertions of the test suite (utils/asserts.go) and sets of strings
    (utils/utils.go). An assertion yields the bool it returns and the number of
    errors it reports to the test, which fails if there is any. *)
From Verif Require Export M_Base.

(** A slice: nil, or the address of its first element with its elements. *)
Inductive gslice (A : Type) := GNil | GSlice (p : nat) (l : list A).
Global Arguments GNil {A}.
Global Arguments GSlice {A} p l.
Definition gs_list {A} (s : gslice A) : list A := match s with GNil => [] | GSlice _ l => l end.

(** reflect.DeepEqual on slices with elements that are compared by [eqb]
    (deepValueEqual of Go 1.15, reflect/deepequal.go). *)
Fixpoint all_equal {A} (eqb : A -> A -> bool) (l k : list A) : bool :=
  match l, k with
  | x :: l, y :: k => eqb x y && all_equal eqb l k
  | _, _ => true
  end.
Definition deep_equal {A} (eqb : A -> A -> bool) (s1 s2 : gslice A) : bool :=
  match s1, s2 with
  | GNil, GNil => true
  | GSlice p l, GSlice q k => bool_decide (length l = length k) && (bool_decide (p = q) || all_equal eqb l k)
  | _, _ => false
  end.

(** ToStringSet (utils.go:52-58): a map with the value true for each string.
    StringSetKeys (utils.go:60-68) puts the keys into a new
    slice of that length in the order [ord] of the iteration. *)
Definition to_string_set (l : list string) : gmap string bool := foldl (fun m s => <[s := true]> m) ∅ l.
Definition string_set_keys (ord : list (string * bool)) : list string := fst <$> ord.
(** reflect.DeepEqual on maps with bools: the same number of keys, and every key
    of the first one has the same value in the second one. *)
Definition deep_equal_map (m1 m2 : gmap string bool) : bool :=
  bool_decide (size m1 = size m2) && bool_decide (map_Forall (fun k b => m2 !! k = Some b) m1).

(** "if bad { t.Errorf(...); return false }; return true" *)
Definition report (bad : bool) : bool * nat := if bad then (false, 1) else (true, 0).

(** asserts.go:8-22 *)
Definition assert_string_equals (actual expected : string) : bool * nat := report (negb (bool_decide (actual = expected))).
Definition assert_string_not_equals (actual expected : string) : bool * nat := report (bool_decide (actual = expected)).
(** asserts.go:24-38 *)
Definition assert_int_equals (actual expected : Z) : bool * nat := report (negb (bool_decide (actual = expected))).
Definition assert_int_not_equals (actual expected : Z) : bool * nat := report (bool_decide (actual = expected)).
(** asserts.go:40-46; the constant 0.01 is rounded to float64. *)
Definition tolerance : f64 := f64_div f64_one (f64_of_Z 100).
Definition assert_float_equals (actual expected : f64) : bool * nat :=
  report (f64_lt actual (f64_sub expected tolerance) || f64_lt (f64_add expected tolerance) actual).
(** asserts.go:48-66 *)
Definition assert_false (value : bool) : bool * nat := report value.
Definition assert_true (value : bool) : bool * nat := assert_false (negb value).
Definition assert_no_error {E} (err : option E) : bool * nat := report (bool_decide (is_Some err)).
(** asserts.go:68-85 *)
Definition str_eqb (x y : string) : bool := bool_decide (x = y).
Definition assert_string_slice_equals (actual expected : gslice string) (orderMatters : bool) : bool * nat :=
  report (if orderMatters then negb (deep_equal str_eqb actual expected)
          else negb (deep_equal_map (to_string_set (gs_list actual)) (to_string_set (gs_list expected)))).
(** asserts.go:87-101 *)
Definition int_eqb (x y : Z) : bool := bool_decide (x = y).
Definition assert_int_slice_equals (actual expected : gslice Z) : bool * nat := report (negb (deep_equal int_eqb actual expected)).
Definition assert_int_slice_not_equals (actual expected : gslice Z) : bool * nat := report (deep_equal int_eqb actual expected).
(** asserts.go:103-115: the results of the inner calls are not used, but their
    errors are reported. *)
Fixpoint float_errors (l k : list f64) : nat :=
  match l, k with
  | x :: l, y :: k => (assert_float_equals x y).2 + float_errors l k
  | _, _ => 0
  end.
Definition assert_float_slice_equals (actual expected : gslice f64) : bool * nat :=
  if negb (deep_equal (fun x y => SFeqb x y) actual expected) then
    (false, if decide (length (gs_list actual) <> length (gs_list expected)) then 1
            else float_errors (gs_list actual) (gs_list expected))
  else (true, 0).
(** asserts.go:117-123 *)
Definition bool_eqb (x y : bool) : bool := bool_decide (x = y).
Definition assert_bool_slice_equals (actual expected : gslice bool) : bool * nat := report (negb (deep_equal bool_eqb actual expected)).
