(** Fitted models through encoding/json: C88. *)
From Verif Require Import M_Json.
From Verif Require Import P_AutoMain P_LinRegMain.
From Verif Require Import Spec_Json P_CsvText P_Csv4 P_Json P_Json2 P_Json3 P_JsonMain P_Check.

(** C88 Any value with grammatical numbers and valid texts is read back from its
    text; other texts are changed, exactly if they are not valid UTF-8. *)
Theorem C88_text : (forall v, jvalid v -> jparse (jtext v) = Some v) /\
  (forall s, jparse (jquote s) = Some (JStr (sanitize s))) /\ (forall s, utf8 (sanitize s)) /\ (forall s, sanitize s = s <-> utf8 s).
Proof. exact C88_text_main. Qed.
Print Assumptions C88_text.
(** Marshal succeeds exactly if all numbers are finite. *)
Theorem C88_marshal : forall (jrt : JsonRT),
  (forall s, is_Some (scaler_marshal s) <-> scaler_nums finite s.1) /\
  (forall f, is_Some (imputer_marshal f) <-> map_nums finite f.1) /\
  (forall l, is_Some (marshal hash_json l)) /\ (forall e, is_Some (marshal encoder_json e)) /\
  (forall p, is_Some (marshal auto_json p) <-> auto_nums finite p) /\
  (forall r, is_Some (marshal linreg_json r) <-> linreg_nums finite r).
Proof. exact @C88_marshal_main. Qed.
Print Assumptions C88_marshal.
(** Unmarshal of the text of a scaler, imputer, encoder or regressor: the same
    values, but not the options. *)
Theorem C88_scaler : forall (jrt : JsonRT) (HE : exact_numbers), forall s opt, scaler_nums is_f64 s -> scaler_nums finite s -> scaler_names s ->
  (scaler_marshal (s, opt) ≫= scaler_unmarshal) = Some (s, ScalerOpt false false false).
Proof. intros jrt HE. exact (C88_scaler_main HE). Qed.
Print Assumptions C88_scaler.
Theorem C88_imputer : forall (jrt : JsonRT) (HE : exact_numbers), forall f pol, map_nums is_f64 f -> map_nums finite f -> map_names f ->
  (imputer_marshal (f, pol) ≫= imputer_unmarshal) = Some (f, IMean).
Proof. intros jrt HE. exact (C88_imputer_main HE). Qed.
Print Assumptions C88_imputer.
Theorem C88_encoders : (forall l, Forall utf8 l -> (marshal hash_json l ≫= unmarshal hash_of) = Some l) /\
  (forall e, encoder_names e -> (marshal encoder_json e ≫= unmarshal encoder_of) = Some e).
Proof. exact C88_encoders_main. Qed.
Print Assumptions C88_encoders.
Theorem C88_linreg : forall (jrt : JsonRT) (HE : exact_numbers), forall r, linreg_nums is_f64 r -> linreg_nums finite r -> linreg_names r ->
  (marshal linreg_json r ≫= unmarshal linreg_of) = Some r.
Proof. intros jrt HE. exact (C88_linreg_main HE). Qed.
Print Assumptions C88_linreg.
(** A reloaded preprocessor transforms every dataframe as the original. *)
Theorem C88_auto : forall (jrt : JsonRT) (rt : GoRT), exact_numbers -> forall p, auto_nums is_f64 p -> auto_nums finite p -> auto_names p ->
  exists p', (marshal auto_json p ≫= unmarshal auto_of) = Some p' /\ ap_opt p' = AutoOpt false false [] /\
    forall order d h, auto_transform order p' d h = auto_transform order p d h /\ auto_columns order p' h = auto_columns order p h.
Proof. exact @C88_auto_main. Qed.
Print Assumptions C88_auto.
(** Fit, Marshal, Unmarshal, Transform. *)
Theorem C88_fitted : forall (jrt : JsonRT) (rt : GoRT) (order : gset string -> list string) (Ho : forall X, order X ≡ₚ elements X) (ord : string -> bool -> gset Z -> list Z) (Hord : forall c b X, ord c b X ≡ₚ elements X), exact_numbers ->
  forall opt h d p h', wf h d -> strings_ok (abs h d) -> good_names (abs h d) -> good_floats (abs h d) ->
  auto_fit order ord (new_auto opt) d h = Ok (p, h') ->
  match marshal auto_json p with
  | Some text => auto_nums finite p /\ exists p', unmarshal auto_of text = Some p' /\
      forall order' d' h2, auto_transform order' p' d' h2 = auto_transform order' p d' h2
  | None => ~ auto_nums finite p
  end.
Proof. exact @C88_fitted_main. Qed.
Print Assumptions C88_fitted.
Section cases.
Local Existing Instance ex_rt.
Local Existing Instance ex_jrt.
Example C88_case : exact_numbers /\ wf ex_h ex_d /\ strings_ok (abs ex_h ex_d) /\ good_names (abs ex_h ex_d) /\ good_floats (abs ex_h ex_d) /\
  auto_fit elts ord0 (new_auto wa_opt) ex_d ex_h = Ok (wa_fit.1, wa_fit.2) /\ marshal auto_json wa_fit.1 = Some wj_text /\
  ap_hash wj_back = Some ["s"] /\ (s ← ap_scaler wj_back; sc_shift s !! "b") = Some (SFopp (f64_div (fz 5) (fz 8))) /\
  ap_opt wj_back <> ap_opt wa_fit.1.
Proof. exact C88_check_main. Qed.
(** The options are lost. *)
Theorem C88_options_refuted : exists (h : heap) (d : dframe) (opt opt' : scaler_opt) (sc sc2 sc' : scaler f64_arith) (h1 h2 : heap) (text : string),
  wf h d /\ exact_numbers /\ scaler_fit elts opt d h = Ok (sc, h1) /\ scaler_marshal (sc, opt) = Some text /\ scaler_unmarshal text = Some (sc2, opt') /\
  scaler_fit elts opt' d h = Ok (sc', h2) /\ is_Some (sc_shift sc !! "x") /\ is_Some (sc_shift sc2 !! "x") /\ size (sc_shift sc') = 0 /\ size (sc_scale sc') = 0.
Proof. exact C88_options_refuted_main. Qed.
Print Assumptions C88_options_refuted.
(** NaN in the fitted model. *)
Theorem C88_missing_refuted : exists (h : heap) (d : dframe) (p : auto) (h' : heap), wf h d /\ exact_numbers /\ good_names (abs h d) /\ good_floats (abs h d) /\
  auto_fit elts ord0 (new_auto wj_nopt) d h = Ok (p, h') /\ marshal auto_json p = None.
Proof. exact C88_missing_refuted_main. Qed.
Print Assumptions C88_missing_refuted.
(** Names that are not UTF-8. *)
Theorem C88_names_refuted : exists sc sc' : scaler f64_arith, exact_numbers /\ scaler_nums is_f64 sc /\ scaler_nums finite sc /\
  (scaler_marshal (sc, wj_opt) ≫= scaler_unmarshal) = Some (sc', ScalerOpt false false false) /\
  size (sc_shift sc) = 2 /\ size (sc_shift sc') = 1 /\ forall c, is_Some (sc_shift sc !! c) -> sc_shift sc' !! c = None.
Proof. exact C88_names_refuted_main. Qed.
Print Assumptions C88_names_refuted.
End cases.
