(** Constant predictions, and errors in the unit of the target: the property
    theorem C127. *)
From Coq Require Import Reals.
From Verif Require Import P_BaselineMain P_ErrorsMain P_UnitsMain M_Prep P_Auto4 P_Check.
Local Open Scope R_scope.

(** C127 The error of a constant prediction. *)
Theorem C127_constant : forall (a : R) (ys : list R), ys <> [] ->
  x_mse (replicate (length ys) a) ys = r_var ys + (a - r_mean ys) * (a - r_mean ys).
Proof. exact C127_constant_main. Qed.
Print Assumptions C127_constant.
(** The mean FloatImputer stores is the best constant, and the only one. *)
Theorem C127_best : forall (vs : list xr) (m : R), Forall finite_or_missing vs -> mean_of real_arith vs = XR m ->
  let n := length (present vs) in forall a : R,
  x_mse (replicate n m) (present vs) <= x_mse (replicate n a) (present vs) /\
  (x_mse (replicate n a) (present vs) = x_mse (replicate n m) (present vs) -> a = m).
Proof. exact C127_best_main. Qed.
Print Assumptions C127_best.
(** Predicting 0 for a standardised target has the error 1. *)
Theorem C127_zero : forall (c : string) (ys : list R), ~ all_equal ys ->
  mse_of real_arith (replicate (length ys) (XR 0)) (exact_result std c (XR <$> ys)) = XR 1.
Proof. exact C127_zero_main. Qed.
Print Assumptions C127_zero.
(** Errors of predictions transformed back are those of the standardised
    target, times the variance or the deviation. *)
Theorem C127_back : forall (c : string) (ys zs : list R), ~ all_equal ys -> length zs = length ys ->
  let sc := exact_scaler std c (XR <$> ys) in
  let predicted := scale_value (inverse_scaler sc) c <$> (XR <$> zs) in
  let target := scale_value sc c <$> (XR <$> ys) in
  mse_of real_arith predicted (XR <$> ys) = a_mul real_arith (mse_of real_arith (XR <$> zs) target) (XR (r_var ys)) /\
  mae_of real_arith predicted (XR <$> ys) = a_mul real_arith (mae_of real_arith (XR <$> zs) target) (XR (R_sqrt.sqrt (r_var ys))).
Proof. exact C127_back_main. Qed.
Print Assumptions C127_back.
Example C127_case : ~ all_equal [1; 5] /\ r_mean [1; 5] = 3 /\ r_var [1; 5] = 4 /\ x_mse (replicate 2 1) [1; 5] = 8 /\
  mean_of real_arith [XR 1; XNaN; XR 5] = XR 3.
Proof. exact C127_check_main. Qed.
