(** How far standardised values can be from 0: the property theorem C126. *)
From Coq Require Import Reals.
From Verif Require Import P_OutlierMain P_UnitsMain M_Prep P_Auto4 P_Check.
Local Open Scope R_scope.

(** C126 With n values no standardised value has a square above n - 1. *)
Theorem C126_bound : forall (c : string) (vs : list xr) (i : nat) (z : R), Forall finite_or_missing vs ->
  exact_result std c vs !! i = Some (XR z) -> z * z <= INR (length (present vs)) - 1.
Proof. exact C126_bound_main. Qed.
Print Assumptions C126_bound.
(** The bound is reached for every n. *)
Theorem C126_reached : forall (c : string) (n : nat), (2 <= n)%nat ->
  exists z, exact_result std c (XR 1 :: replicate (n - 1) (XR 0)) !! 0%nat = Some (XR z) /\ z * z = INR n - 1.
Proof. exact C126_reached_main. Qed.
Print Assumptions C126_reached.
(** At most n / k^2 values are at distance k or more. *)
Theorem C126_few : forall (c : string) (vs : list xr) (k : R), Forall finite_or_missing vs -> 0 < k ->
  INR (length (far k (present (exact_result std c vs)))) <= INR (length (present vs)) / (k * k).
Proof. exact C126_few_main. Qed.
Print Assumptions C126_few.
(** In particular no value of ten or fewer is more than three deviations away. *)
Theorem C126_ten_rows : forall (c : string) (vs : list xr) (i : nat) (z : R), Forall finite_or_missing vs -> (length vs <= 10)%nat ->
  exact_result std c vs !! i = Some (XR z) -> Rabs z <= 3.
Proof. exact C126_ten_rows_main. Qed.
Print Assumptions C126_ten_rows.
Local Existing Instance ex_rt.
Example C126_case : Forall finite_or_missing [XR 5; XNaN; XR 0; XR 0; XR 0; XR 0] /\ length (present [XR 5; XNaN; XR 0; XR 0; XR 0; XR 0]) = 5%nat /\
  far 2 [2; 1; -3] = [2; -3] /\
  fit_trans std [fz 5; S754_nan; fz 0; fz 0; fz 0; fz 0] = Some (VFloat <$> [fz 2; S754_nan] ++ replicate 4 (f64_div (fz (-1)) (fz 2))).
Proof. exact C126_check_main. Qed.
