(** What it means to write and to read a float64 in decimal. *)
From Coq Require Import Reals Strings.Ascii.
From Flocq Require Import Core BinarySingleNaN.
From Verif Require Import M_Base.
From Verif Require Import Spec_Json.
From stdpp Require Import strings list.

(** The number a float64 stands for, and the nearest one (ties to even) to a
    real number, exponents being unlimited above. *)
Definition real_of (x : spec_float) : R := SF2R radix2 x.
Definition round_even (r : R) : R := round radix2 (FLT_exp (-1074) 53) ZnearestE r.
Definition negative (x : spec_float) : bool :=
  match x with S754_zero s | S754_infinity s | S754_finite s _ _ => s | S754_nan => false end.
(** [o] is the float64 nearest to [r], [s] being the sign of a zero; [None] if
    all float64 are too small. *)
Definition rounded (s : bool) (r : R) (o : option spec_float) : Prop :=
  (Rabs (round_even r) < bpow radix2 1024 ->
     exists x, o = Some x /\ is_f64 x /\ finite x /\ real_of x = round_even r /\ negative x = s)%R /\
  (bpow radix2 1024 <= Rabs (round_even r) -> o = None)%R.

(** Decimal digits. *)
Fixpoint digits (s : string) : Prop :=
  match s with "" => True | String c s => 48 <= nat_of_ascii c <= 57 /\ digits s end.
Fixpoint value (s : string) : Z :=
  match s with "" => 0 | String c r => (Z.of_nat (nat_of_ascii c) - 48) * 10 ^ Z.of_nat (String.length r) + value r end%Z.
(** A decimal number: sign, digits before and after the point, exponent (the
    character before it, its sign and its digits). *)
Record decimal := Decimal {
  de_sign : string; de_int : string; de_frac : option string; de_exp : option (ascii * string * string) }.
Definition sign_ok (s : string) : Prop := s = "" \/ s = "+" \/ s = "-".
Definition decimal_ok (d : decimal) : Prop :=
  sign_ok (de_sign d) /\ digits (de_int d) /\ digits (default "" (de_frac d)) /\
  (de_int d <> "" \/ default "" (de_frac d) <> "") /\
  match de_exp d with
  | None => True
  | Some (c, s, e) => (c = "e"%char \/ c = "E"%char) /\ sign_ok s /\ digits e /\ e <> ""
  end.
Definition decimal_text (d : decimal) : string :=
  de_sign d +:+ de_int d +:+ match de_frac d with None => "" | Some f => "." +:+ f end +:+
  match de_exp d with None => "" | Some (c, s, e) => String c (s +:+ e) end.
(** Its exponent and its value. *)
Definition decimal_exp (d : decimal) : Z :=
  match de_exp d with None => 0 | Some (_, s, e) => if decide (s = "-") then - value e else value e end%Z.
Definition minus_sign (d : decimal) : bool := bool_decide (de_sign d = "-").
Definition decimal_value (d : decimal) : R :=
  ((if minus_sign d then -1 else 1) * IZR (value (de_int d +:+ default "" (de_frac d))) *
   powerRZ 10 (decimal_exp d - Z.of_nat (String.length (default "" (de_frac d)))))%R.

(** Texts made of the characters of decimal numbers. *)
Fixpoint number_chars (s : string) : Prop :=
  match s with
  | "" => True
  | String c s => (48 <= nat_of_ascii c <= 57 \/ c ∈ ["."%char; "+"%char; "-"%char; "e"%char; "E"%char]) /\ number_chars s
  end.
(** [D * 10^k], with the sign of [x], has at most [n] digits and [x] is the
    nearest float64. *)
Definition short_for (x : spec_float) (D k : Z) (n : nat) : Prop :=
  (0 < D < 10 ^ Z.of_nat n)%Z /\ (round_even ((if negative x then -1 else 1) * IZR D * powerRZ 10 k) = real_of x)%R.
(** [v] = (+-) [D * 10^k] has at most 17 digits, no number with fewer digits is
    rounded to [x], and none with as many digits is closer to [x]. *)
Definition best_for (x : spec_float) (v : R) (D k : Z) : Prop :=
  v = ((if negative x then -1 else 1) * IZR D * powerRZ 10 k)%R /\ short_for x D k 17 /\
  forall D' k' n, short_for x D' k' n -> short_for x D k n /\
    ((10 ^ (Z.of_nat n - 1) <= D)%Z ->
     Rabs (v - real_of x) <= Rabs ((if negative x then -1 else 1) * IZR D' * powerRZ 10 k' - real_of x))%R.
(** The float64 that are integers of type int64 except the smallest. *)
Definition int_like (x : spec_float) : Prop :=
  finite x /\ exists z, real_of x = IZR z /\ (- 2 ^ 63 < z < 2 ^ 63)%Z.
(** No superfluous zero before the digits or after the point. *)
Definition plain_int (s : string) : Prop := s = "0" \/ exists c r, s = String c r /\ c <> "0"%char.
Definition canonical (d : decimal) : Prop :=
  (de_sign d = "" \/ de_sign d = "-") /\ plain_int (de_int d) /\
  match de_frac d with None => True | Some f => f <> "" /\ forall r, f <> r +:+ "0" end.
