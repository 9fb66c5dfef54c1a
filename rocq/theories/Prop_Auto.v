(** AutoPreprocessor: the property theorems C58 and C74. The specification is
    in Spec_Auto.v. *)
From Verif Require Import P_AutoMain.

(** C58 Fit, TransformView and FitTransform, in any iteration order of maps. *)
Theorem C58_fit : forall (rt : GoRT) (order : gset string -> list string) (Ho : forall X, order X ≡ₚ elements X) (ord : string -> bool -> gset Z -> list Z) (Hord : forall c b X, ord c b X ≡ₚ elements X), forall opt h d, wf h d -> strings_ok (abs h d) ->
  match auto_fit order ord (new_auto opt) d h with
  | Ok (p, h') => preserved h h' /\ auto_fitted opt (abs h d) p /\ (t_rows (abs h d) <> 0 \/ forall c, ~ categorical (abs h d) c)
  | Panic => t_rows (abs h d) = 0 /\ exists c, categorical (abs h d) c
  end.
Proof. intros rt order Ho ord Hord. exact (C58_fit_main order Ho ord Hord). Qed.
Print Assumptions C58_fit.
Theorem C58_transform : forall (rt : GoRT) (order : gset string -> list string) (Ho : forall X, order X ≡ₚ elements X), forall opt t0 p h d, auto_fitted opt t0 p -> no_clash t0 -> wf h d -> unique_names (abs h d) ->
  (forall c, c ∈ t_strs (abs h d) -> is_Some (t_cols (abs h d) !! (KObj, c))) -> has_inputs p (abs h d) ->
  exists v h', auto_transform order p d h = Ok (Some v, h') /\ wf h' v /\ preserved h h' /\
    prepared_as (reps d) p (abs h d) (abs h' v).
Proof. intros rt order Ho. exact (C58_transform_main order Ho). Qed.
Print Assumptions C58_transform.
Theorem C58_fit_transform_partial : forall (rt : GoRT) (order : gset string -> list string) (Ho : forall X, order X ≡ₚ elements X) (ord : string -> bool -> gset Z -> list Z) (Hord : forall c b X, ord c b X ≡ₚ elements X), forall opt h d, wf h d -> unique_names (abs h d) -> strings_ok (abs h d) -> no_clash (abs h d) ->
  (ao_imputing opt = true /\ ao_scaling opt = true \/
   ao_imputing opt = false /\ ao_scaling opt = false /\ forall c, ~ categorical (abs h d) c) ->
  match auto_fit_transform order ord (new_auto opt) d h with
  | Ok ((p, v), h') => wf h' v /\ preserved h h' /\ exists h1, auto_fit order ord (new_auto opt) d h = Ok (p, h1) /\
      forall order', (forall X, order' X ≡ₚ elements X) -> exists w h2, auto_transform order' p d h1 = Ok (Some w, h2) /\
        wf h2 w /\ preserved h h2 /\ abs h2 w = abs h' v
  | Panic => auto_fit order ord (new_auto opt) d h = Panic
  end.
Proof. intros rt order Ho ord Hord. exact (C58_fit_transform_partial_main order Ho ord Hord). Qed.
Print Assumptions C58_fit_transform_partial.
Theorem C58_fit_transform_panics : forall (rt : GoRT) (order : gset string -> list string) (Ho : forall X, order X ≡ₚ elements X) (ord : string -> bool -> gset Z -> list Z) (Hord : forall c b X, ord c b X ≡ₚ elements X), forall opt h d, wf h d -> strings_ok (abs h d) ->
  (ao_imputing opt <> ao_scaling opt \/
   ao_imputing opt = false /\ ao_scaling opt = false /\ exists c, categorical (abs h d) c) ->
  auto_fit_transform order ord (new_auto opt) d h = Panic.
Proof. intros rt order Ho ord Hord. exact (C58_fit_transform_panics_main order Ho ord Hord). Qed.
Print Assumptions C58_fit_transform_panics.
Theorem C58_excluded_partial : forall opt t0 p n t t' k c, auto_fitted opt t0 p -> prepared_as n p t t' ->
  (forall cols c, ap_hash p = Some cols -> c ∈ cols -> is_Some (t_cols t !! (KObj, c))) ->
  ~ categorical t0 c -> (k = KFloat -> ~ float_used opt t0 c) -> (k = KBool -> forall e, ap_onehot p = Some e -> c ∉ en_new e) ->
  t_cols t' !! (k, c) = t_cols t !! (k, c).
Proof. exact C58_excluded_partial_main. Qed.
Print Assumptions C58_excluded_partial.
Local Existing Instance ex_rt.
Example C58_case : wf ex_h ex_d /\ unique_names (abs ex_h ex_d) /\ strings_ok (abs ex_h ex_d) /\ no_clash (abs ex_h ex_d) /\
  categorical (abs ex_h ex_d) "s" /\ auto_fitted wa_opt (abs ex_h ex_d) wa_fit.1 /\ has_inputs wa_fit.1 (abs ex_h ex_d) /\
  show KFloat "b" wa_ft.2 wa_ft.1 = show KFloat "b" wa_tr.2 wa_tr.1 /\ show KFloat "b" wa_ft.2 wa_ft.1 <> show KFloat "b" ex_h ex_d /\
  show KBool "s_onehot0" wa_ft.2 wa_ft.1 = Some (VBool <$> [true; false; false; true]) /\
  show KBool "s_missing" wa_ft.2 wa_ft.1 = Some (VBool <$> [false; true; false; false]) /\
  (map_to_list (t_cols (abs wa_ft.2 wa_ft.1))).*1 ≡ₚ
    [(KBool, "f"); (KFloat, "b"); (KBool, "s_missing"); (KBool, "s_onehot0"); (KBool, "s_onehot1"); (KInt, "a")].
Proof. exact C58_check_main. Qed.
(** The documentation does not mention these restrictions. *)
Theorem C58_fit_transform_refuted : exists opt p h1 v h2, wf ex_h ex_d /\
  auto_fit elts ord0 (new_auto opt) ex_d ex_h = Ok (p, h1) /\ auto_transform elts p ex_d h1 = Ok (Some v, h2) /\
  auto_fit_transform elts ord0 (new_auto opt) ex_d ex_h = Panic.
Proof. exact C58_fit_transform_refuted_main. Qed.
Print Assumptions C58_fit_transform_refuted.
Theorem C58_excluded_refuted : exists opt p v h, wf ex_h ex_d /\ "b" ∈ ao_exclude opt /\ "s" ∈ ao_exclude opt /\
  auto_fit_transform elts ord0 (new_auto opt) ex_d ex_h = Ok ((p, v), h) /\
  t_cols (abs h v) !! (KFloat, "b") <> t_cols (abs ex_h ex_d) !! (KFloat, "b") /\
  t_cols (abs h v) !! (KObj, "s") = None /\ is_Some (t_cols (abs ex_h ex_d) !! (KObj, "s")).
Proof. exact C58_excluded_refuted_main. Qed.
Print Assumptions C58_excluded_refuted.
Theorem C58_refit_refuted : exists p0 d h p1 v1 h1 p h2, wf h d /\ auto_fitted wa_opt (abs ex_h ex_d) p0 /\
  auto_fit_transform elts ord0 p0 d h = Ok ((p1, v1), h1) /\
  auto_fit elts ord0 p0 d h = Ok (p, h2) /\ auto_transform elts p d h2 = Panic.
Proof. exact C58_refit_refuted_main. Qed.
Print Assumptions C58_refit_refuted.
Theorem C58_original_refuted : exists d h p h', wf h d /\ auto_fit elts ord0 (new_auto wa_opt) d h = Ok (p, h') /\
  t_cols (abs h d) !! (KInt, "s") = None /\ is_Some (t_cols (abs h' d) !! (KInt, "s")).
Proof. exact C58_original_refuted_main. Qed.
Print Assumptions C58_original_refuted.

(** C74 TransformedColumns. *)
Theorem C74_columns_partial : forall order (Ho : forall X : gset string, order X ≡ₚ elements X) opt t p h, auto_fitted opt t p ->
  match auto_columns order p h with
  | Ok (cols, h') => h' = h /\ ao_imputing opt = true /\ t_strs t <> ∅ /\ (forall c, c ∈ cols <-> float_used opt t c \/ categorical t c)
  | Panic => ao_imputing opt = false \/ t_strs t = ∅
  end.
Proof. exact C74_columns_partial_main. Qed.
Print Assumptions C74_columns_partial.
Example C74_case : auto_columns elts wa_fit.1 wa_fit.2 = Ok (["b"; "s"], wa_fit.2).
Proof. exact C74_check_main. Qed.
Theorem C74_columns_refuted : exists d h p h', wf h d /\ auto_fit elts ord0 (new_auto wa_opt) d h = Ok (p, h') /\
  auto_columns elts p h' = Panic.
Proof. exact C74_columns_refuted_main. Qed.
Print Assumptions C74_columns_refuted.
