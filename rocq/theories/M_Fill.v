(** fillBlanks (dataframe/builder.go:116-163), which completes the dataframes of
    the test suite. [ord] is the order in which Go iterates over the maps and
    [ids i] the identity of the slice made for row i. *)
From Verif Require Export M_Build.
From stdpp Require Import strings.

Section fill.
Context {rt : GoRT}.

(** The five loops over [arr] (builder.go:123-127, 132-138, 143-145, 150-152,
    157-159). *)
Definition some_object (ids : nat -> nat) (i : nat) : val :=
  if decide (i mod 2 = 0) then VObj (OOther (ids i)) else VObj ONil.
Definition some_string (i : nat) : string := if decide (i mod 2 = 0) then "one" else "two".
Definition some_int (i : nat) : val := VInt (Z.of_nat i).
Definition some_bool (i : nat) : val := VBool (bool_decide (i mod 2 = 0)).
Definition some_float (rows i : nat) : val := VFloat (f64_div (f64_of_Z (Z.of_nat i)) (f64_of_Z (Z.of_nat rows))).

(** if len(data.ints) == 0 { ... builder.AddInts(c, arr...) }
    (builder.go:141-147, and the same for bools and floats). *)
Definition fill_kind (k : kind) (c : string) (vs : list val) (r : raw) : M raw :=
  let* m := get_mp (r_maps r) in
  if decide (size (names_of k m) = 0) then b_add k r c vs else ret r.
Definition fill_objects (ids : nat -> nat) (rows : nat) (r : raw) : M raw :=
  let* m := get_mp (r_maps r) in
  let* st := get_ostr (r_strs r) in
  if decide (size (names_of KObj m) = size st) then b_add KObj r "SomeObjects" (some_object ids <$> seq 0 rows) else ret r.
Definition fill_strings (rows : nat) (r : raw) : M raw :=
  let* st := get_ostr (r_strs r) in
  if decide (size st = 0) then b_add_strings r "SomeStrings" (some_string <$> seq 0 rows) else ret r.

Definition fill_blanks (ord : gmap key slice -> list (key * slice)) (ids : nat -> nat) (r : raw) : M dframe :=
  let* m := get_mp (r_maps r) in
  let rows := nar_ord (ord m) in
  let* r := fill_objects ids rows r in
  let* r := fill_strings rows r in
  let* r := fill_kind KInt "SomeInts" (some_int <$> seq 0 rows) r in
  let* r := fill_kind KBool "SomeBools" (some_bool <$> seq 0 rows) r in
  let* r := fill_kind KFloat "SomeFloats" (some_float rows <$> seq 0 rows) r in
  let* m := get_mp (r_maps r) in to_dataframe_ord (ord m) r.

End fill.
