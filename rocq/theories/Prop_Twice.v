(** Preprocessing twice: the property theorem C119. *)
From Coq Require Import Reals.
From Verif Require Import P_TwiceMain M_Prep P_Auto4 P_Check.

(** C119 Imputing twice is imputing once. *)
Theorem C119_imputer : forall (order : gset string -> list string) (fb : gmap string f64) (h : heap) (d : dframe) (h1 : heap),
  wf h d -> (forall X, order X ≡ₚ elements X) -> own_cells h d (dom fb) -> imputer_transform order fb d h = Ok (tt, h1) ->
  exists h2, imputer_transform order fb d h1 = Ok (tt, h2) /\ wf h2 d /\ abs h2 d = abs h1 d.
Proof. exact C119_imputer_main. Qed.
Print Assumptions C119_imputer.
(** Fitting and applying a second scaler changes nothing, in exact arithmetic. *)
Theorem C119_standardised : forall (c : string) (vs : list xr), Forall finite_or_missing vs ->
  let opt := ScalerOpt false true true in exact_result opt c (exact_result opt c vs) = exact_result opt c vs.
Proof. exact C119_standardised_main. Qed.
Print Assumptions C119_standardised.
Theorem C119_centered : forall (c : string) (vs : list xr), Forall finite_or_missing vs ->
  let opt := ScalerOpt false true false in exact_result opt c (exact_result opt c vs) = exact_result opt c vs.
Proof. exact C119_centered_main. Qed.
Print Assumptions C119_centered.
(** Without centering the column must not be constant. *)
Theorem C119_scaled_partial : forall (c : string) (vs : list xr), Forall finite_or_missing vs -> ~ all_equal (present vs) ->
  let opt := ScalerOpt false false true in exact_result opt c (exact_result opt c vs) = exact_result opt c vs.
Proof. exact C119_scaled_partial_main. Qed.
Print Assumptions C119_scaled_partial.
Local Existing Instance ex_rt.
Example C119_case : wf tw.2 tw.1 /\ own_cells tw.2 tw.1 (dom tw_fb) /\ imputer_transform elts tw_fb tw.1 tw.2 = Ok (tt, tw1) /\
  show KFloat "x" tw1 tw.1 = Some (VFloat <$> [fz 2; fz 3; fz 4]) /\
  Forall finite_or_missing [XR 1; XNaN; XR 3] /\ ~ all_equal (present [XR 1; XNaN; XR 3]).
Proof. exact C119_check_main. Qed.
Theorem C119_scaling_refuted : exists vs ws : list f64, Forall finite vs /\ fit_trans (ScalerOpt false false true) vs = Some (VFloat <$> ws) /\
  fit_trans (ScalerOpt false false true) ws <> Some (VFloat <$> ws) /\ is_Some (fit_trans (ScalerOpt false false true) ws).
Proof. exact C119_scaling_refuted_main. Qed.
Print Assumptions C119_scaling_refuted.
(** Min-max scaling multiplies by the range (C51). *)
Theorem C119_minmax_refuted : exists vs ws : list f64, Forall finite vs /\ fit_trans (ScalerOpt true false false) vs = Some (VFloat <$> ws) /\
  fit_trans (ScalerOpt true false false) ws <> Some (VFloat <$> ws) /\ is_Some (fit_trans (ScalerOpt true false false) ws).
Proof. exact C119_minmax_refuted_main. Qed.
Print Assumptions C119_minmax_refuted.
