(** Floats in text: C91. *)
From Verif Require Import M_Strconv.
From Verif Require Import P_Exec.
From Coq Require Import Reals.
From stdpp Require Import strings list.
From Verif Require Import P_CsvMain Spec_Csv Spec_Json Spec_Strconv P_StrconvMain.
Local Open Scope Z_scope.

(** C91 What is written is read back, in CSV and in JSON, for every float64,
    NaN, infinities and negative zero included. *)
Theorem C91_round_trip : forall x, is_f64 x -> parse_f64 (fmt_f64 x) = Some x /\ parse_f64 (fmt_json x) = Some x.
Proof. exact C91_round_trip_main. Qed.
Print Assumptions C91_round_trip.
(** A decimal number is read as the nearest float64, ties to even, and is an
    error if it is too large; nothing else that is made of the characters of
    decimal numbers is read. *)
Theorem C91_parse : forall d, decimal_ok d -> Z.abs (decimal_exp d) < 100000 ->
  rounded (minus_sign d) (decimal_value d) (parse_f64 (decimal_text d)).
Proof. exact C91_parse_main. Qed.
Print Assumptions C91_parse.
Theorem C91_syntax : forall s x, number_chars s -> parse_f64 s = Some x -> exists d, decimal_ok d /\ s = decimal_text d.
Proof. exact C91_syntax_main. Qed.
Print Assumptions C91_syntax.
(** The decimal written has as few digits as possible, at most 17, and is the
    closest of those; in JSON it has an exponent below 1e-6 and from 1e21 on. *)
Theorem C91_written : forall x, is_f64 x -> finite x -> real_of x <> 0%R ->
  exists d D k, decimal_text d = fmt_f64 x /\ decimal_ok d /\ canonical d /\ de_exp d = None /\ minus_sign d = negative x /\
    best_for x (decimal_value d) D k.
Proof. exact C91_written_main. Qed.
Print Assumptions C91_written.
Theorem C91_json : forall x, is_f64 x -> finite x -> real_of x <> 0%R ->
  exists d D k, decimal_text d = fmt_json x /\ decimal_ok d /\ canonical d /\ minus_sign d = negative x /\
    best_for x (decimal_value d) D k /\
    (de_exp d = None <-> (round_even (powerRZ 10 (-6)) <= Rabs (real_of x) < powerRZ 10 21)%R) /\
    (de_exp d <> None -> String.length (de_int d) = 1%nat).
Proof. exact C91_json_main. Qed.
Print Assumptions C91_json.
(** The assumptions on strconv of C45, C49, C88 and C90 hold. *)
Theorem C91_json_exact : @exact_numbers go_jrt.
Proof. exact C91_json_exact_main. Qed.
Print Assumptions C91_json_exact.
Theorem C91_ints : @ints_are_floats go_crt.
Proof. exact C91_ints_main. Qed.
Print Assumptions C91_ints.
Theorem C91_numbers : forall vs, (forall z, VInt z ∈ vs -> - 2 ^ 63 <= z < 2 ^ 63) -> (forall x, VFloat x ∈ vs -> is_f64 x) ->
  @numbers_ok go_crt vs.
Proof. exact C91_numbers_main. Qed.
Print Assumptions C91_numbers.
(** A column of floats comes back from CSV as such if and only if some value is
    not an integer of type int64 and not written like a missing value, and
    nothing but NaN is written like one. *)
Theorem C91_csv_column : forall marker ms vs, (forall x, VFloat x ∈ vs -> is_f64 x) ->
  @survives go_crt marker ms KFloat vs <->
  (exists x, VFloat x ∈ vs /\ ~ int_like x /\ fmt_f64 x ∉ ms) /\ (forall x, VFloat x ∈ vs -> fmt_f64 x ∈ ms -> x = S754_nan).
Proof. exact C91_csv_column_main. Qed.
Print Assumptions C91_csv_column.
Example C91_case :
  (is_f64 w_tenth /\ finite w_tenth /\ real_of w_tenth <> 0%R /\ fmt_f64 w_tenth = "0.1" /\ parse_f64 "0.1" = Some w_tenth) /\
  (decimal_ok w_dec /\ number_chars (decimal_text w_dec) /\ decimal_text w_dec = "-12.50E+01" /\ parse_f64 "-12.50E+01" = Some (f64_of_Z (-125))) /\
  fmt_f64 w_2p63 = "-9223372036854776000" /\ fmt_json (S754_finite false 1 (-1074)) = "5e-324" /\ fmt_json (f64_of_Z (10 ^ 21)) = "1e+21" /\
  parse_f64 "1e309" = None /\ parse_f64 "1e-400" = Some (S754_zero false) /\ parse_f64 "1__0" = None /\ parse_f64 "0x1p-2" = Some (S754_finite false 4503599627370496 (-54)) /\
  ~ @survives go_crt "" [""] KFloat [VFloat (f64_of_Z 1); VFloat (f64_of_Z 2)] /\ @survives go_crt "" [""] KFloat [VFloat (f64_of_Z 1); VFloat w_tenth].
Proof. exact C91_check_main. Qed.
(** The bound on the exponent is needed. *)
Theorem C91_long_exponent_refuted : exists d x, decimal_ok d /\ decimal_value d = 1%R /\ parse_f64 (decimal_text d) = Some x /\ (real_of x < 1)%R.
Proof. exact C91_long_exponent_refuted_main. Qed.
Print Assumptions C91_long_exponent_refuted.
