(** Imputing the mean before standardising: the property theorem C122. *)
From Coq Require Import Reals.
From Verif Require Import P_FilledMain M_Prep P_Auto4 P_Check.
Local Open Scope R_scope.

(** C122 Imputing the mean leaves no missing value and does not change the mean. *)
Theorem C122_mean : (forall fallback v : f64, impute_in f64_arith fallback v = impute_value fallback v) /\
  forall (vs : list xr), Forall finite_or_missing vs -> present vs <> [] ->
  Forall (fun w => exists r, w = XR r) (imputed vs) /\ mean_of real_arith (imputed vs) = mean_of real_arith vs.
Proof. exact C122_mean_main. Qed.
Print Assumptions C122_mean.
(** Standardising the imputed column gives the standardised column stretched by
    the root of (number of rows / number of values present), 0 where values
    were missing. *)
Theorem C122_standardised : forall (c : string) (vs : list xr), Forall finite_or_missing vs -> present vs <> [] ->
  exact_result std c (imputed vs) = stretched (R_sqrt.sqrt (INR (length vs) / INR (length (present vs)))) <$> exact_result std c vs.
Proof. exact C122_standardised_main. Qed.
Print Assumptions C122_standardised.
Local Existing Instance ex_rt.
Example C122_case : (let vs := [XR 1; XNaN; XNaN; XR 3; XNaN; XNaN; XNaN; XNaN] in Forall finite_or_missing vs /\ present vs = [1; 3] /\ length vs = 8%nat) /\
  (let vs := [fz 1; S754_nan; S754_nan; fz 3; S754_nan; S754_nan; S754_nan; S754_nan] in
   fit_impute IMean vs = Some (VFloat <$> [fz 1; fz 2; fz 2; fz 3; fz 2; fz 2; fz 2; fz 2]) /\
   fit_trans std vs = Some (VFloat <$> [fz (-1); S754_nan; S754_nan; fz 1; S754_nan; S754_nan; S754_nan; S754_nan]) /\
   fit_trans std [fz 1; fz 2; fz 2; fz 3; fz 2; fz 2; fz 2; fz 2] = Some (VFloat <$> [fz (-2); fz 0; fz 0; fz 2; fz 0; fz 0; fz 0; fz 0])).
Proof. exact C122_check_main. Qed.
