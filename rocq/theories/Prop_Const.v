(** Constant columns in float64: more on C72. *)
From Coq Require Import Reals.
From Flocq Require Import Core BinarySingleNaN.
From Verif Require Import P_Float P_ConstMain P_PrepMain P_Check.
Local Open Scope R_scope.

(** C72 The constant is m 2^e with n |m| at most 2^53, as for all integers and
    short binary fractions. *)
Theorem C72_float64_partial : forall (t : table) (c : string) (sc : scaler f64_arith) (x : f64) (m e : Z),
  fits (ScalerOpt false true true) t sc -> is_Some (t_cols t !! (KFloat, c)) ->
  (* the column holds x or NaN *)
  valid_binary 53 1024 x = true -> is_finite_SF x = true ->
  Forall (fun v => v = x \/ f64_isnan v = true) (t_floats t c) ->
  (* x = m 2^e, so short that its multiples are float64 *)
  f64_R x = IZR m * bpow radix2 e -> (-1074 <= e <= 970)%Z ->
  (let n := Z.of_nat (length (List.filter (fun v => negb (f64_isnan v)) (t_floats t c))) in
   n * Z.abs m <= 2 ^ 53 /\ n < 2 ^ 53)%Z ->
  forall v, v ∈ t_floats t c -> if f64_isnan v then f64_isnan (spec_scaled sc c v) = true else exists s, spec_scaled sc c v = S754_zero s.
Proof. exact C72_float64_partial_main. Qed.
Print Assumptions C72_float64_partial.
Example C72_case2 : f64_R c72_x = IZR 3 * bpow radix2 (-3) /\ (3 * Z.abs 3 <= 2 ^ 53)%Z /\
  fit_trans (ScalerOpt false true true) [c72_x; c72_x; S754_nan; c72_x] = Some (VFloat <$> [fz 0; fz 0; S754_nan; fz 0]).
Proof. exact C72_check2_main. Qed.
