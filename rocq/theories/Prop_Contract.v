(** The contract of the interface Transform: C102. *)
From Verif Require Import P_ContractMain P_AutoMain.
From stdpp Require Import strings list.
From Verif Require Import Spec_Contract P_Base P_Check.

(** C102 TransformView stores what it transforms in new cells and shares the rest
    with its argument. HashEncoder, if another column is there: *)
Theorem C102_hash_partial : forall (rt : GoRT), forall h d cols, wf h d -> 
  (forall c, c ∈ cols -> is_Some (t_cols (abs h d) !! (KObj, c))) ->
  (exists k, is_Some (t_cols (abs h d) !! k) /\ k.2 ∉ cols) ->
  exists v h', hash_encoder_transform cols d h = Ok (v, h') /\ contract h d h' v (fun k => k.2 ∈ cols).
Proof. intros rt. exact C102_hash_partial_main. Qed.
Print Assumptions C102_hash_partial.
(** OneHotEncoder, if no encoded column has the name of a new one: *)
Theorem C102_onehot : forall (rt : GoRT), forall opt t0 e h d v h', fitted opt t0 e -> wf h d -> drop_safe e (abs h d) ->
  oh_transform e d h = Ok (Some v, h') -> contract h d h' v (onehot_touches e).
Proof. intros rt. exact C102_onehot_main. Qed.
Print Assumptions C102_onehot.
(** AutoPreprocessor, if a float column is to be transformed or none of them may be: *)
Theorem C102_auto_partial : forall (rt : GoRT), forall order (Ho : forall X : gset string, order X ≡ₚ elements X) opt t0 p h d,
  auto_fitted opt t0 p -> no_clash t0 -> wf h d -> unique_names (abs h d) ->
  (forall c, c ∈ t_strs (abs h d) -> is_Some (t_cols (abs h d) !! (KObj, c))) -> has_inputs p (abs h d) ->
  (* something is there to impute or to scale, or neither is wanted *)
  (ap_imputer p = None /\ ap_scaler p = None \/ exists c, floats_touched p c) ->
  exists v h', auto_transform order p d h = Ok (Some v, h') /\ contract h d h' v (auto_touches p).
Proof. intros rt. exact C102_auto_partial_main. Qed.
Print Assumptions C102_auto_partial.
Local Existing Instance ex_rt.
(** Nothing but strings: the result keeps the strings of its argument. *)
Theorem C102_hash_refuted : exists cols d h v h', wf h d /\
  (forall c, c ∈ cols -> is_Some (t_cols (abs h d) !! (KObj, c))) /\
  hash_encoder_transform cols d h = Ok (v, h') /\ ~ contract h d h' v (fun k => k.2 ∈ cols).
Proof. exact C102_hash_refuted_main. Qed.
Print Assumptions C102_hash_refuted.
(** No floats: every column is copied. *)
Theorem C102_auto_refuted : exists opt d h p h1 v h2, wf h d /\ auto_fit elts ord0 (new_auto opt) d h = Ok (p, h1) /\
  auto_transform elts p d h1 = Ok (Some v, h2) /\ ~ contract h1 d h2 v (auto_touches p).
Proof. exact C102_auto_refuted_main. Qed.
Print Assumptions C102_auto_refuted.
Example C102_case : wf ex_h ex_d /\ auto_fitted wa_opt (abs ex_h ex_d) wa_fit.1 /\ floats_touched wa_fit.1 "b" /\
  ~ auto_touches wa_fit.1 (KBool, "f") /\ cell_of wa_tr.2 wa_tr.1 (KBool, "f") 0 = cell_of ex_h ex_d (KBool, "f") 0 /\
  is_Some (cell_of ex_h ex_d (KBool, "f") 0) /\ is_Some (cell_of wa_tr.2 wa_tr.1 (KFloat, "b") 0) /\
  cell_of wa_tr.2 wa_tr.1 (KFloat, "b") 0 <> cell_of ex_h ex_d (KFloat, "b") 0 /\
  is_Some (cell_of wa_tr.2 wa_tr.1 (KBool, "s_missing") 0) /\ cell_of wa_tr.2 wa_tr.1 (KObj, "s") 0 = None.
Proof. exact C102_check_main. Qed.
