(** Standardising and units: the property theorem C121. *)
From Coq Require Import Reals.
From Verif Require Import P_UnitsMain M_Prep P_Auto4 P_Check.
Local Open Scope R_scope.

(** C121 The standardised values do not depend on the unit of the data. *)
Theorem C121_units : forall (c : string) (vs : list xr) (a b : R), Forall finite_or_missing vs -> 0 < a ->
  exact_result std c (in_unit a b <$> vs) = exact_result std c vs.
Proof. exact C121_units_main. Qed.
Print Assumptions C121_units.
(** The inverse transformation returns values in the unit of the data. *)
Theorem C121_back : forall (c : string) (vs : list xr) (a b z : R), Forall finite_or_missing vs -> ~ all_equal (present vs) -> 0 < a ->
  exists x, scale_value (inverse_scaler (exact_scaler std c vs)) c (XR z) = XR x /\
    scale_value (inverse_scaler (exact_scaler std c (in_unit a b <$> vs))) c (XR z) = XR (a * x + b).
Proof. exact C121_back_main. Qed.
Print Assumptions C121_back.
Local Existing Instance ex_rt.
Example C121_case : Forall finite_or_missing [XR 1; XNaN; XR 3] /\ ~ all_equal (present [XR 1; XNaN; XR 3]) /\
  (in_unit 2 1 <$> [XR 1; XNaN; XR 3]) = [XR (2 * 1 + 1); XNaN; XR (2 * 3 + 1)] /\
  fit_trans std [fz 1; S754_nan; fz 3] = Some (VFloat <$> [fz (-1); S754_nan; fz 1]) /\
  fit_trans std [fz 3; S754_nan; fz 7] = Some (VFloat <$> [fz (-1); S754_nan; fz 1]).
Proof. exact C121_check_main. Qed.
