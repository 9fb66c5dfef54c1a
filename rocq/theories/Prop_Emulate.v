(** In-place transformations as view transformations: C99. *)
From Verif Require Import P_PrepMain P_EmulateMain P_Check.

(** C99 TransformInplace on a detached view does what TransformView is
    documented to do: the dataframe is not changed, nor is any other. *)
Theorem C99_scaler : forall (rt : GoRT) (order : gset string -> list string) (Ho : forall X, order X ≡ₚ elements X), forall sc h d, wf h d -> (forall c, c ∈ spec_cols sc -> is_Some (t_cols (abs h d) !! (KFloat, c))) ->
  exists v h1 h2, detached_view d (order (spec_cols sc)) h = Ok (v, h1) /\ scaler_transform order sc v h1 = Ok (tt, h2) /\
    wf h2 v /\ preserved h h2 /\ inds v = inds d /\
    (NoDup (inds d) -> abs h2 v = t_update (spec_cols sc) (spec_scaled sc) (abs h d)).
Proof. intros rt order Ho. exact (C99_scaler_main order Ho). Qed.
Print Assumptions C99_scaler.
Theorem C99_imputer : forall (rt : GoRT) (order : gset string -> list string) (Ho : forall X, order X ≡ₚ elements X), forall fb h d, wf h d -> (forall c, c ∈ dom fb -> is_Some (t_cols (abs h d) !! (KFloat, c))) ->
  exists v h1 h2, detached_view d (order (dom fb)) h = Ok (v, h1) /\ imputer_transform order fb v h1 = Ok (tt, h2) /\
    wf h2 v /\ preserved h h2 /\ abs h2 v = t_update (dom fb) (spec_impute fb) (abs h d).
Proof. intros rt order Ho. exact (C99_imputer_main order Ho). Qed.
Print Assumptions C99_imputer.
(** With View instead the dataframe is transformed too. *)
Theorem C99_view : forall (rt : GoRT) (order : gset string -> list string) (Ho : forall X, order X ≡ₚ elements X), forall sc h d, wf h d -> (forall c, c ∈ spec_cols sc -> is_Some (t_cols (abs h d) !! (KFloat, c))) ->
  NoDup (inds d) -> own_cells h d (spec_cols sc) ->
  exists h', scaler_transform order sc (view d) h = Ok (tt, h') /\
    abs h' d = t_update (spec_cols sc) (spec_scaled sc) (abs h d) /\ abs h' (view d) = abs h' d.
Proof. intros rt order Ho. exact (C99_view_main order Ho). Qed.
Print Assumptions C99_view.
Section cases.
Local Existing Instance ex_rt.
Example C99_case : wf ex_h ex_d /\ NoDup (inds ex_d) /\
  (forall c, c ∈ spec_cols c53_sc -> is_Some (t_cols (abs ex_h ex_d) !! (KFloat, c))) /\
  t_floats (abs ex_h ex_d) "b" = [f_half; fz 0; fz 1; fz 1] /\
  c99_run ex_d ex_h = Some ([fz 3; fz 2; fz 4; fz 4], [f_half; fz 0; fz 1; fz 1]).
Proof. exact C99_check_main. Qed.
(** The recipe of preprocessing/interfaces.go:46-48. *)
Theorem C99_view_refuted : exists h d h', wf h d /\ scaler_transform elts c53_sc (view d) h = Ok (tt, h') /\
  t_floats (abs h d) "b" = [f_half; fz 0; fz 1; fz 1] /\ t_floats (abs h' d) "b" = [fz 3; fz 2; fz 4; fz 4].
Proof. exact C99_view_refuted_main. Qed.
Print Assumptions C99_view_refuted.
End cases.
