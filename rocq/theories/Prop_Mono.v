(** Scaling keeps the order of the values in float64: the property theorem C125. *)
From Coq Require Import Reals.
From Flocq Require Import Core BinarySingleNaN.
From Verif Require Import P_Float P_FloatEx P_MonoMain M_Prep P_Check.
Local Open Scope R_scope.

(** C125 Scaling by a positive factor keeps the order, whatever the rounding. *)
Theorem C125_monotone : forall (sc : scaler f64_arith) (c : string) (x y : f64),
  fin64 (shift_of sc c) -> fin64 (factor_of sc c) -> 0 < f64_R (factor_of sc c) ->
  valid_binary 53 1024 x = true -> valid_binary 53 1024 y = true -> f64_le x y = true ->
  f64_le (scale_value sc c x) (scale_value sc c y) = true.
Proof. exact C125_monotone_main. Qed.
Print Assumptions C125_monotone.
(** The factors of fitted scalers are positive if they are finite and not zero. *)
Theorem C125_fitted : forall (opt : scaler_opt) (t : table) (sc : scaler f64_arith) (c : string), fits opt t sc ->
  Forall (fun v => valid_binary 53 1024 v = true) (t_floats t c) ->
  fin64 (shift_of sc c) -> fin64 (factor_of sc c) -> f64_R (factor_of sc c) <> 0 ->
  forall x y : f64, valid_binary 53 1024 x = true -> valid_binary 53 1024 y = true -> f64_le x y = true ->
  f64_le (scale_value sc c x) (scale_value sc c y) = true.
Proof. exact C125_fitted_main. Qed.
Print Assumptions C125_fitted.
Local Existing Instance ex_rt.
Example C125_case : (let '(d, h) := one_col [fz 1; S754_nan; fz 3] in let sc := run_fit (ScalerOpt false true true) d h in
  shift_of sc "x" = fz (-2) /\ factor_of sc "x" = fz 1) /\ fit_trans (ScalerOpt false true true) [fz 1; S754_nan; fz 3; S754_infinity true] = Some (VFloat <$> [S754_nan; S754_nan; S754_nan; S754_nan]).
Proof. exact C125_check_main. Qed.
(** Different values may become equal. *)
Theorem C125_strict_refuted : exists (vs ws : list f64) (x y : f64), vs !! 0%nat = Some x /\ vs !! 1%nat = Some y /\ f64_lt x y = true /\
  fit_trans (ScalerOpt false true true) vs = Some (VFloat <$> ws) /\ ws !! 0%nat = ws !! 1%nat.
Proof. exact C125_strict_refuted_main. Qed.
Print Assumptions C125_strict_refuted.
