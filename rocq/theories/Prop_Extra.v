(** Preprocessors on dataframes with extra columns (preprocessing/README.md): C107. *)
From Verif Require Import P_ExtraMain.
From stdpp Require Import strings list.
From Verif Require Import Spec_Extra P_Base P_Check.

(** C107 FloatImputer and Scaler do to a ColumnView with all columns they were
    trained on exactly what they do to the whole dataframe, all other columns being
    left alone (see C53, C54). InverseTransformInplace is TransformInplace of another
    scaler. *)
Theorem C107_imputer : forall (rt : GoRT) order (fb : gmap string f64) h d cols v h1,
  wf h d -> (forall X, order X ≡ₚ elements X) ->
  column_view d cols h = Ok (v, h1) -> (forall c, c ∈ dom fb -> c ∈ cols) ->
  imputer_transform order fb v h1 = imputer_transform order fb d h1.
Proof. exact C107_imputer_main. Qed.
Print Assumptions C107_imputer.
Theorem C107_scaler : forall (rt : GoRT) order (sc : scaler f64_arith) h d cols v h1,
  wf h d -> (forall X, order X ≡ₚ elements X) ->
  column_view d cols h = Ok (v, h1) -> (forall c, c ∈ spec_cols sc -> c ∈ cols) ->
  scaler_transform order sc v h1 = scaler_transform order sc d h1.
Proof. exact C107_scaler_main. Qed.
Print Assumptions C107_scaler.
Theorem C107_column_view : forall (rt : GoRT) h d cols v h1, wf h d -> column_view d cols h = Ok (v, h1) ->
  wf h1 v /\ wf h1 d /\ inds v = inds d /\ agree (list_to_set cols) (abs h1 v) (abs h1 d).
Proof. exact C107_column_view_main. Qed.
Print Assumptions C107_column_view.
(** HashEncoder, OneHotEncoder and AutoPreprocessor make the same of columns that
    are the same in two dataframes, whatever other columns these have. *)
Theorem C107_hash : forall (rt : GoRT) cols (S : gset string) h1 d1 h2 d2, wf h1 d1 -> wf h2 d2 -> cols <> [] ->
  (forall c, c ∈ cols -> c ∈ S /\ is_Some (t_cols (abs h1 d1) !! (KObj, c))) ->
  (exists k, is_Some (t_cols (abs h1 d1) !! k) /\ k.2 ∉ cols) -> (exists k, is_Some (t_cols (abs h2 d2) !! k) /\ k.2 ∉ cols) ->
  agree S (abs h1 d1) (abs h2 d2) ->
  exists v1 h1' v2 h2', hash_encoder_transform cols d1 h1 = Ok (v1, h1') /\ hash_encoder_transform cols d2 h2 = Ok (v2, h2') /\
    agree S (abs h1' v1) (abs h2' v2).
Proof. exact C107_hash_main. Qed.
Print Assumptions C107_hash.
Theorem C107_onehot : forall (rt : GoRT) opt t0 e (S : gset string) h1 d1 h2 d2, fixed opt -> fitted opt t0 e -> wf h1 d1 -> wf h2 d2 ->
  drop_safe e (abs h1 d1) -> drop_safe e (abs h2 d2) ->
  (forall c, c ∈ en_cats e -> c ∈ S /\ is_Some (t_cols (abs h1 d1) !! (KInt, c))) ->
  agree S (abs h1 d1) (abs h2 d2) ->
  match oh_transform e d1 h1, oh_transform e d2 h2 with
  | Ok (Some v1, h1'), Ok (Some v2, h2') => t_rows (abs h1' v1) = t_rows (abs h2' v2) /\
      forall k, k.2 ∈ S \/ k.1 = KBool /\ k.2 ∈ en_new e -> t_cols (abs h1' v1) !! k = t_cols (abs h2' v2) !! k
  | Ok (None, _), Ok (None, _) => True
  | _, _ => False
  end.
Proof. exact C107_onehot_main. Qed.
Print Assumptions C107_onehot.
Theorem C107_auto : forall (rt : GoRT) order (Ho : forall X, order X ≡ₚ elements X) opt t0 p (S : gset string) h1 d1 h2 d2,
  auto_fitted opt t0 p -> no_clash t0 -> wf h1 d1 -> wf h2 d2 -> unique_names (abs h1 d1) -> unique_names (abs h2 d2) ->
  (forall c, c ∈ t_strs (abs h1 d1) -> is_Some (t_cols (abs h1 d1) !! (KObj, c))) ->
  (forall c, c ∈ t_strs (abs h2 d2) -> is_Some (t_cols (abs h2 d2) !! (KObj, c))) ->
  has_inputs p (abs h1 d1) -> has_inputs p (abs h2 d2) -> inds d1 = inds d2 ->
  agree S (abs h1 d1) (abs h2 d2) -> (forall c, categorical t0 c -> c ∈ S) ->
  exists v1 h1' v2 h2', auto_transform order p d1 h1 = Ok (Some v1, h1') /\ auto_transform order p d2 h2 = Ok (Some v2, h2') /\
    t_rows (abs h1' v1) = t_rows (abs h2' v2) /\
    forall k, k.2 ∈ S \/ k.1 = KBool /\ (exists e, ap_onehot p = Some e /\ k.2 ∈ en_new e) ->
      t_cols (abs h1' v1) !! k = t_cols (abs h2' v2) !! k.
Proof. exact C107_auto_main. Qed.
Print Assumptions C107_auto.
Example C107_case : wf ex_h ex_d /\ column_view ex_d ["b"; "s"] ex_h = Ok x_narrow /\
  auto_fitted wa_opt (abs ex_h ex_d) wa_fit.1 /\ (forall c, categorical (abs ex_h ex_d) c -> c ∈ ["b"; "s"]) /\
  has_inputs wa_fit.1 (abs x_narrow.2 x_narrow.1) /\ unique_names (abs x_narrow.2 x_narrow.1) /\
  dom x_imputer = {["b"]} /\
  show KInt "a" x_narrow.2 x_narrow.1 = None /\ show KInt "a" x_wide.2 x_wide.1 = show KInt "a" ex_h ex_d /\
  show KFloat "b" x_wide.2 x_wide.1 = show KFloat "b" x_thin.2 x_thin.1 /\
  show KBool "s_onehot0" x_thin.2 x_thin.1 = Some (VBool <$> [true; false; false; true]).
Proof. exact C107_check_main. Qed.
(** But extra columns are overwritten or dropped if they are called like a new
    column or, whatever their type, like an encoded one. *)
Theorem C107_names_refuted : exists (rt : GoRT) t0 e h d v h' n c, wf h d /\ fitted w_opt t0 e /\ oh_transform e d h = Ok (Some v, h') /\
  t_cols t0 !! (KBool, n) = None /\ t_cols t0 !! (KFloat, c) = None /\
  (exists col, t_cols (abs h d) !! (KBool, n) = Some col /\ t_cols (abs h' v) !! (KBool, n) <> Some col) /\
  is_Some (t_cols (abs h d) !! (KFloat, c)) /\ t_cols (abs h' v) !! (KFloat, c) = None.
Proof. exact C107_names_refuted_main. Qed.
Print Assumptions C107_names_refuted.
