(** Training does not depend on the unit of the target: the property theorem C128. *)
From Coq Require Import Reals.
From Verif Require Import P_PrepMain P_TargetMain P_UnitsMain M_LinReg P_Auto4 P_Check.
Local Open Scope R_scope.

(** C128 Training on the target in another unit, with the same initial weights
    and batches, gives the same predictions in that unit. *)
Theorem C128_unit : forall (bl : blas real_arith), exact_blas bl ->
  forall (ne size : Z) (lr decay momentum : R) (lowmem : bool) (w prev : list R) (rows : list (list R)) (parts : list (list nat)) (new : list (list R)) (ys : list R) (a b : R),
  length prev = length w -> length rows = length ys -> Forall (fun x => length x = length w) rows -> Forall (fun x => length x = length w) new ->
  ~ all_equal ys -> 0 < a ->
  let predict := exact_predictions bl (exact_params ne size lr decay momentum lowmem) w prev rows parts new in
  exists us, length us = length new /\ predict (XR <$> ys) = XR <$> us /\ predict (in_unit a b <$> (XR <$> ys)) = XR <$> ((fun u => a * u + b) <$> us).
Proof. exact C128_unit_main. Qed.
Print Assumptions C128_unit.
(** Likewise for features that are standardised: a scaler fitted to data in
    another unit maps every value in that unit, also one it was not fitted to, to
    the same number. *)
Theorem C128_features : forall (c : string) (vs : list xr) (a b : R) (v : xr), Forall finite_or_missing vs -> ~ all_equal (present vs) -> 0 < a -> finite_or_missing v ->
  scale_value (exact_scaler std c (in_unit a b <$> vs)) c (in_unit a b v) = scale_value (exact_scaler std c vs) c v.
Proof. exact C128_features_main. Qed.
Print Assumptions C128_features.
Example C128_case : exact_blas xbl /\ Forall (fun x : list R => length x = 1%nat) xw_rows /\ length xw_rows = 2%nat /\ ~ all_equal [1; 5] /\
  (in_unit 2 1 <$> (XR <$> [1; 5])) = [XR (2 * 1 + 1); XR (2 * 5 + 1)] /\ pick [1%nat; 0%nat] [1; 5] = [5; 1].
Proof. exact C128_check_main. Qed.
