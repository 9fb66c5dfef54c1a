(** C88: JSON serialisation. *)
From Verif Require Import M_Json.
From Verif Require Import P_AutoMain P_LinRegMain.
From Verif Require Import Spec_Json P_CsvText P_Csv4 P_Json P_Json2 P_Json3 P_Check.

(** ** The text *)
Lemma jvalid_ok v : jvalid v -> jok v /\ jsan v = v.
Proof.
  induction v as [|b|s|s|l IH|l IH] using json_ind'; intros H; inversion H as [| |s' Hs|s' Hs|l' Hl|l' Hl]; subst.
  - split; [constructor|done].
  - split; [constructor|done].
  - split; [by constructor|done].
  - split; [constructor|]. cbn [jsan]. by rewrite utf8_sanitize.
  - assert (G : Forall (fun v => jok v /\ jsan v = v) l).
    { rewrite Forall_forall in *. intros v Hv. by apply IH, Hl. }
    split; [constructor; eapply Forall_impl; [exact G|]; by intros ? []|]. cbn [jsan]. f_equal. clear -G.
    induction G as [|v l [_ E] _ IH]; [done|]. cbn [map]. by rewrite E, IH.
  - assert (G : Forall (fun p : string * json => utf8 p.1 /\ jok p.2 /\ jsan p.2 = p.2) l).
    { rewrite Forall_forall in *. intros p Hp. split; [by apply Hl|]. by apply IH, Hl. }
    split; [constructor; eapply Forall_impl; [exact G|]; by intros ? (? & ? & ?)|]. cbn [jsan]. f_equal. clear -G.
    induction G as [|[k v] l (U & _ & E) _ IH]; [done|]. cbn [map fst snd] in *. by rewrite E, IH, utf8_sanitize.
Qed.
Lemma C88_text_main : (forall v, jvalid v -> jparse (jtext v) = Some v) /\
  (forall s, jparse (jquote s) = Some (JStr (sanitize s))) /\ (forall s, utf8 (sanitize s)) /\ (forall s, sanitize s = s <-> utf8 s).
Proof.
  split; [|split; [|split; [apply sanitize_utf8|apply sanitize_id]]].
  - intros v [H1 H2]%jvalid_ok. rewrite jparse_text by done. by rewrite H2.
  - intros s. by apply (jparse_text (JStr s)), jok_str.
Qed.

(** ** Marshal fails exactly because of NaN and infinities *)
Lemma C88_marshal_main {jrt : JsonRT} :
  (forall s, is_Some (scaler_marshal s) <-> scaler_nums finite s.1) /\
  (forall f, is_Some (imputer_marshal f) <-> map_nums finite f.1) /\
  (forall l, is_Some (marshal hash_json l)) /\ (forall e, is_Some (marshal encoder_json e)) /\
  (forall p, is_Some (marshal auto_json p) <-> auto_nums finite p) /\
  (forall r, is_Some (marshal linreg_json r) <-> linreg_nums finite r).
Proof.
  unfold scaler_marshal, imputer_marshal. split; [|split; [|split; [|split; [|split]]]]; intros x; rewrite marshal_is_Some.
  - apply scaler_is_Some.
  - apply imputer_is_Some.
  - apply hash_is_Some.
  - apply encoder_is_Some.
  - apply auto_is_Some.
  - apply linreg_is_Some.
Qed.

(** ** What Unmarshal makes of it *)
Section main.
Context {jrt : JsonRT} (HE : exact_numbers).
Lemma nums_stored m : map_nums is_f64 m -> map_nums finite m -> map_nums stored m.
Proof. intros H1 H2 c x Hx. split; [by eapply H1|by eapply H2]. Qed.
Lemma scaler_stored s : scaler_nums is_f64 s -> scaler_nums finite s -> scaler_nums stored s.
Proof. intros [H1 H2] [H3 H4]. split; by apply nums_stored. Qed.
Lemma C88_scaler_main : forall s opt, scaler_nums is_f64 s -> scaler_nums finite s -> scaler_names s ->
  (scaler_marshal (s, opt) ≫= scaler_unmarshal) = Some (s, ScalerOpt false false false).
Proof.
  intros s opt H1 H2 H3. pose proof (reload _ _ _ (scaler_codec HE) s (conj H3 (scaler_stored s H1 H2))) as H.
  unfold scaler_marshal, scaler_unmarshal. cbn [fst]. destruct (marshal scaler_json s) as [t|]; [|done]. cbn [mbind option_bind] in *. by rewrite H.
Qed.
Lemma C88_imputer_main : forall f pol, map_nums is_f64 f -> map_nums finite f -> map_names f ->
  (imputer_marshal (f, pol) ≫= imputer_unmarshal) = Some (f, IMean).
Proof.
  intros f pol H1 H2 H3. pose proof (reload _ _ _ (imputer_codec HE) f (conj H3 (nums_stored f H1 H2))) as H.
  unfold imputer_marshal, imputer_unmarshal. cbn [fst]. destruct (marshal imputer_json f) as [t|]; [|done]. cbn [mbind option_bind] in *. by rewrite H.
Qed.
Lemma C88_encoders_main : (forall l, Forall utf8 l -> (marshal hash_json l ≫= unmarshal hash_of) = Some l) /\
  (forall e, encoder_names e -> (marshal encoder_json e ≫= unmarshal encoder_of) = Some e).
Proof. split; [apply (reload _ _ _ hash_codec)|apply (reload _ _ _ encoder_codec)]. Qed.
Lemma auto_reload p : auto_nums is_f64 p -> auto_nums finite p -> auto_names p ->
  (marshal auto_json p ≫= unmarshal auto_of) = Some (Auto (ap_hash p) (ap_onehot p) (ap_imputer p) (ap_scaler p) (AutoOpt false false [])).
Proof.
  intros [H1 H1'] [H2 H2'] H3. destruct (auto_codec HE p H3) as (l & E1 & E2 & E3).
  { split; [intros f Hf; apply nums_stored; auto|intros s Hs; apply scaler_stored; auto]. }
  unfold marshal, unmarshal. rewrite E1. cbn [fmap option_fmap option_map mbind option_bind]. rewrite jparse_text by done. exact E3.
Qed.
Lemma C88_linreg_main : forall r, linreg_nums is_f64 r -> linreg_nums finite r -> linreg_names r ->
  (marshal linreg_json r ≫= unmarshal linreg_of) = Some r.
Proof.
  intros r [H1 H1'] [H2 H2'] H3. apply (reload _ _ _ (linreg_codec HE)). split; [done|]. split.
  - intros s Hs. apply scaler_stored; auto.
  - rewrite Forall_forall in *. intros x Hx. split; auto.
Qed.
End main.
Lemma C88_auto_main {jrt : JsonRT} {rt : GoRT} : exact_numbers -> forall p, auto_nums is_f64 p -> auto_nums finite p -> auto_names p ->
  exists p', (marshal auto_json p ≫= unmarshal auto_of) = Some p' /\ ap_opt p' = AutoOpt false false [] /\
    forall order d h, auto_transform order p' d h = auto_transform order p d h /\ auto_columns order p' h = auto_columns order p h.
Proof. intros HE p H1 H2 H3. eexists. split; [by apply auto_reload|]. split; [done|]. intros order d h. done. Qed.

(** ** Fitted preprocessors *)
Lemma run_jobs_keys {R} (prog : string -> job R) keys : forall h l h', run_jobs prog keys h = Ok (l, h') -> l.*1 = keys.
Proof.
  induction keys as [|k keys IH]; intros h l h'; cbn [run_jobs]; [by intros [= <- <-]|].
  destruct (run_job (prog k) h) as [[r h1]|]; [|done]. intros H. apply bind_inv in H as (l1 & h2 & E & H). injection H as <- <-. rewrite fmap_cons. f_equal. by eapply IH.
Qed.
Lemma to_map_in {A B} (f : A -> B) (l : list (string * A)) c x :
  (list_to_map ((fun p => (p.1, f p.2)) <$> l) : gmap string B) !! c = Some x -> c ∈ l.*1.
Proof.
  intros H. apply elem_of_list_to_map_2 in H. apply elem_of_list_fmap in H as ([k y] & [= -> ->] & H).
  apply elem_of_list_fmap. by exists (k, y).
Qed.
Lemma oh_fit_maps (order : gset string -> list string) ord opt d h e h' : oh_fit order ord opt d h = Ok (e, h') ->
  forall c, is_Some (en_map e !! c) \/ is_Some (en_fb e !! c) -> c ∈ en_cats e.
Proof.
  unfold oh_fit. intros H. apply bind_inv in H as (m & h1 & _ & H). apply bind_inv in H as (res & h2 & E & H). apply run_jobs_keys in E.
  unfold oh_collect in H. destruct (mapM _ _); [|done]. injection H as <- <-. cbn [en_map en_fb en_cats]. intros c [[x Hx]|[x Hx]].
  - rewrite <- E. by eapply (to_map_in fst).
  - rewrite <- E. by eapply (to_map_in snd).
Qed.
Lemma auto_fit_onehot_from {rt : GoRT} order ord opt d h p h' e : auto_fit order ord (new_auto opt) d h = Ok (p, h') -> ap_onehot p = Some e ->
  exists v h1 h2, oh_fit order ord auto_oh v h1 = Ok (e, h2).
Proof.
  unfold auto_fit, auto_train. intros H He. apply bind_inv in H as (x & h0 & H & H0). injection H0 as <- <-.
  apply bind_inv in H as (m & h1 & _ & H). apply bind_inv in H as (p1 & h2 & E1 & H).
  apply bind_inv in H as ([[p2 v2] cats] & h3 & E2 & H). apply bind_inv in H as (p3 & h4 & E3 & H). unfold ret in H. cbn [fst snd] in *.
  injection H as <- <-. cbn [fst snd] in He.
  assert (Q1 : ap_onehot p1 = None).
  { unfold auto_fit_floats in E1. destruct (_ || _); [|by injection E1 as <- <-]. apply bind_inv in E1 as (w & g1 & _ & E1).
    apply bind_inv in E1 as (im & g2 & Ei & E1). apply bind_inv in E1 as (sc & g3 & Es & E1). by injection E1 as <- <-. }
  assert (Q2 : ap_onehot p2 = None).
  { unfold auto_fit_hash in E2. apply bind_inv in E2 as (? & ? & _ & E2). apply bind_inv in E2 as (? & ? & _ & E2). destruct (decide _).
    - apply bind_inv in E2 as (? & ? & _ & E2). apply bind_inv in E2 as (? & ? & _ & E2). by injection E2 as <- <- <- <-.
    - by injection E2 as <- <- <- <-. }
  unfold auto_fit_onehot in E3. destruct (decide _).
  - injection E3 as <- <-. congruence.
  - apply bind_inv in E3 as (v & g1 & _ & E3). apply bind_inv in E3 as (e' & g2 & E & E3). injection E3 as <- <-. cbn in He. injection He as <-. by eexists _, _, _.
Qed.
Lemma ascii_utf8 a s : code a <= 127 -> utf8 s -> utf8 (String a s).
Proof. apply utf8_1. Qed.
Lemma utf8_onehot c i : utf8 c -> utf8 (onehot_name c i).
Proof.
  intros Hc. unfold onehot_name. apply utf8_app; [done|]. apply utf8_app; [|apply (utf8_N (N.of_nat i))].
  repeat (apply ascii_utf8; [apply Nat.leb_le; by vm_compute|]). apply utf8_nil.
Qed.
Lemma utf8_missing c : utf8 c -> utf8 (missing_name c).
Proof. intros Hc. apply utf8_app; [done|]. repeat (apply ascii_utf8; [apply Nat.leb_le; by vm_compute|]). apply utf8_nil. Qed.
Lemma utf8_unk c : utf8 c -> utf8 (unk_name c).
Proof. intros Hc. apply utf8_app; [done|]. repeat (apply ascii_utf8; [apply Nat.leb_le; by vm_compute|]). apply utf8_nil. Qed.
Lemma encoder_fitted_names opt t e : fixed opt -> fitted opt t e -> (forall c, is_Some (en_map e !! c) \/ is_Some (en_fb e !! c) -> c ∈ en_cats e) ->
  (forall c, is_Some (t_cols t !! (KInt, c)) -> utf8 c) -> (forall c z, c ∈ en_cats e -> z ∈ t_ints t c -> is_int64 z) -> encoder_names e.
Proof.
  intros F HF Hdom Hu Hz.
  assert (Hc : forall c, c ∈ en_cats e -> utf8 c) by (intros c Hc; apply Hu; by apply (ft_cats _ _ _ HF)).
  assert (Hm : forall c m z s, en_map e !! c = Some m -> m !! z = Some s -> is_int64 z /\ utf8 s).
  { intros c m z s Hcm Hs. assert (Hin : c ∈ en_cats e) by (apply Hdom; left; by eexists).
    destruct (ft_col _ _ _ HF c Hin) as (m' & fb0 & fb1 & E1 & E2 & HC). rewrite Hcm in E1. injection E1 as <-. split.
    - apply (Hz c z Hin). by apply (fc_cats _ _ _ _ _ _ HC); eexists.
    - destruct (fc_names _ _ _ _ _ _ HC z s Hs) as (i & -> & _). by apply utf8_onehot, Hc. }
  assert (Hf : forall c a b, en_fb e !! c = Some (a, b) -> utf8 a /\ utf8 b).
  { intros c a b Hfb. assert (Hin : c ∈ en_cats e) by (apply Hdom; right; by eexists). pose proof (Hc c Hin) as Hcu.
    destruct (ft_col _ _ _ HF c Hin) as (m' & fb0 & fb1 & E1 & E2 & HC). rewrite Hfb in E2. injection E2 as <- <-.
    assert (Ha : utf8 a).
    { pose proof (fc_fb0 _ _ _ _ _ _ HC) as H0. unfold fallback0_ok in H0. destruct (oh_missing opt).
      - destruct (decide _); [subst; by apply utf8_missing|]. destruct H0 as (z & _ & Hz'). by destruct (Hm c m' z a E1 Hz').
      - done.
      - subst. by apply utf8_missing.
      - destruct H0 as (z & _ & Hz'). by destruct (Hm c m' z a E1 Hz').
      - subst. apply utf8_nil. }
    split; [done|]. pose proof (fc_fb1 _ _ _ _ _ _ HC) as H0. unfold fallback1_ok in H0. destruct (oh_unknown opt).
    - done.
    - by destruct H0 as [-> _].
    - subst. by apply utf8_unk.
    - destruct H0 as (z & _ & Hz'). by destruct (Hm c m' z b E1 Hz').
    - subst. apply utf8_nil. }
  constructor; [done| | |done| |done].
  - intros n (c & Hin & [(m & z & H1 & H2)|(_ & a & b & H1 & [-> | ->])])%(ft_new _ _ _ HF); [by destruct (Hm c m z n H1 H2)|by destruct (Hf c _ _ H1)..].
  - intros c Hcm. apply Hc, Hdom. by left.
  - intros c Hcm. apply Hc, Hdom. by right.
Qed.
Lemma hash_int v : is_int64 (the_int (spec_hash v)).
Proof.
  destruct v as [[|s|]| | |]; try (split; cbn; lia).
  destruct (C24_hash_range_main s) as (z & -> & Hz & _). unfold is_int64. cbn [the_int]. lia.
Qed.
(** Names and ints of a dataframe that can be serialised. *)
Definition good_names (t : table) : Prop :=
  (forall k c, is_Some (t_cols t !! (k, c)) -> utf8 c) /\ (forall c z, z ∈ t_ints t c -> is_int64 z).
Lemma auto_fitted_names opt t p : auto_fitted opt t p -> strings_ok t -> good_names t ->
  (forall e c, ap_onehot p = Some e -> is_Some (en_map e !! c) \/ is_Some (en_fb e !! c) -> c ∈ en_cats e) -> auto_names p.
Proof.
  intros HA [HS _] [Hu Hz] Hdom. assert (Hcat : forall c, categorical t c -> utf8 c).
  { intros c. unfold categorical. destruct (decide _); intros H; [by eapply Hu|]. by eapply Hu, HS. }
  assert (Hfl : forall c, float_used opt t c -> utf8 c) by (intros c [H _]; by eapply Hu).
  constructor.
  - intros l c Hl Hc. pose proof (af_hash _ _ _ HA) as H. rewrite Hl in H. destruct H as [_ H]. rewrite H, elem_of_elements in Hc. by eapply Hu, HS.
  - intros e He. pose proof (af_onehot _ _ _ HA) as H. rewrite He in H. destruct H as (_ & t1 & HF & Ht). eapply encoder_fitted_names; [|exact HF|intros c; by apply Hdom| |].
    + split; by vm_compute.
    + intros c Hc. apply Hcat. by apply Ht.
    + intros c z Hc Hzc. assert (Hk : categorical t c) by (by apply Ht, (ft_cats _ _ _ HF)). destruct (Ht c) as [_ E]. rewrite (E Hk) in Hzc. unfold codes in Hzc.
      destruct (decide _); [by eapply Hz|]. apply elem_of_list_fmap in Hzc as (v & -> & Hv). apply elem_of_list_fmap in Hv as (v' & -> & _). apply hash_int.
  - intros f Hf c Hc. pose proof (af_imputer _ _ _ HA) as H. rewrite Hf in H. destruct H as [_ H]. apply Hfl, H. by apply elem_of_dom.
  - intros s Hs. pose proof (af_scaler _ _ _ HA) as H. rewrite Hs in H. destruct H as [_ H]. split; intros c Hc; destruct (H c) as (H1 & H2 & _); apply Hfl; [apply H1|apply H2]; by apply elem_of_dom.
Qed.
Lemma C88_fitted_main {jrt : JsonRT} {rt : GoRT} (order : gset string -> list string) (Ho : forall X, order X ≡ₚ elements X)
  (ord : string -> bool -> gset Z -> list Z) (Hord : forall c b X, ord c b X ≡ₚ elements X) : exact_numbers ->
  forall opt h d p h', wf h d -> strings_ok (abs h d) -> good_names (abs h d) -> good_floats (abs h d) ->
  auto_fit order ord (new_auto opt) d h = Ok (p, h') ->
  match marshal auto_json p with
  | Some text => auto_nums finite p /\ exists p', unmarshal auto_of text = Some p' /\
      forall order' d' h2, auto_transform order' p' d' h2 = auto_transform order' p d' h2
  | None => ~ auto_nums finite p
  end.
Proof.
  intros HE opt h d p h' W HS HG HF64 E. pose proof (C58_fit_main order Ho ord Hord opt h d W HS) as H. rewrite E in H. destruct H as (_ & HA & _).
  assert (H64 : auto_nums is_f64 p) by (by eapply auto_fitted_nums).
  assert (HN : auto_names p).
  { eapply auto_fitted_names; [done|done|done|]. intros e c He Hc. destruct (auto_fit_onehot_from _ _ _ _ _ _ _ _ E He) as (v & h1 & h2 & Eo). by eapply oh_fit_maps. }
  destruct C88_marshal_main as (_ & _ & _ & _ & HM & _). specialize (HM p). destruct (marshal auto_json p) as [text|] eqn:Em.
  - assert (HF : auto_nums finite p) by (apply HM; by eexists). split; [done|]. pose proof (auto_reload HE p H64 HF HN) as HR. rewrite Em in HR.
    eexists. split; [exact HR|]. done.
  - intros HF. apply HM in HF. by destruct HF.
Qed.

(** ** Witnesses *)
Definition good_check (t : table) : bool :=
  forallb (fun p : key * list val => bool_decide (sanitize p.1.2 = p.1.2) &&
    forallb (fun v => bool_decide (- 2 ^ 63 <= the_int v < 2 ^ 63)%Z && valid_binary 53 1024 (the_float v)) p.2) (map_to_list (t_cols t)).
Lemma good_check_sound t : good_check t = true -> good_names t /\ good_floats t.
Proof.
  unfold good_check. rewrite forallb_forall. intros H.
  assert (G : forall k col, t_cols t !! k = Some col -> utf8 k.2 /\ forall v, v ∈ col -> is_int64 (the_int v) /\ is_f64 (the_float v)).
  { intros k col Hk. specialize (H (k, col)). cbn [fst snd] in H. apply andb_true_iff in H as [H1 H2]; [|by apply elem_of_list_In, elem_of_map_to_list].
    apply bool_decide_eq_true in H1. split; [by apply sanitize_id|]. rewrite forallb_forall in H2. intros v Hv.
    specialize (H2 v). apply andb_true_iff in H2 as [H2 H3]; [|by apply elem_of_list_In]. by apply bool_decide_eq_true in H2. }
  split; [split|].
  - intros k c [col Hc]. by apply (G (k, c) col).
  - intros c z Hz. unfold t_ints in Hz. destruct (t_cols t !! (KInt, c)) as [col|] eqn:E; [|by apply elem_of_nil in Hz].
    apply elem_of_list_fmap in Hz as (v & -> & Hv). by apply (proj2 (G _ _ E)).
  - intros c. unfold t_floats. destruct (t_cols t !! (KFloat, c)) as [col|] eqn:E; [|constructor].
    apply Forall_fmap, Forall_forall. intros v Hv. by apply (proj2 (G _ _ E)).
Qed.
Section wit.
Existing Instance ex_rt.
Existing Instance ex_jrt.
Definition wj_text : string := default "" (marshal auto_json wa_fit.1).
Definition wj_back : auto := default no_auto (unmarshal auto_of wj_text).
Lemma C88_check_main : exact_numbers /\ wf ex_h ex_d /\ strings_ok (abs ex_h ex_d) /\ good_names (abs ex_h ex_d) /\ good_floats (abs ex_h ex_d) /\
  auto_fit elts ord0 (new_auto wa_opt) ex_d ex_h = Ok (wa_fit.1, wa_fit.2) /\ marshal auto_json wa_fit.1 = Some wj_text /\
  ap_hash wj_back = Some ["s"] /\ (s ← ap_scaler wj_back; sc_shift s !! "b") = Some (SFopp (f64_div (fz 5) (fz 8))) /\ ap_opt wj_back <> ap_opt wa_fit.1.
Proof.
  destruct C58_check_main as (_ & _ & HS & _). split; [exact toy_exact|]. split; [exact ex_wf|]. split; [exact HS|].
  destruct (good_check_sound (abs ex_h ex_d)) as [H1 H2]; [by vm_compute|]. split; [done|]. split; [done|].
  split; [by vm_compute|]. split; [by vm_compute|]. split; [by vm_compute|]. split; [by vm_compute|]. by vm_compute.
Qed.
(** ** What goes wrong *)
(** Fit after reloading: the options are gone. *)
Definition wj_col : dframe * heap := one_col [fz 1; fz 3; fz 1; fz 3].
Definition wj_opt := ScalerOpt false true true.
Definition wj_sc : scaler f64_arith := run_fit wj_opt wj_col.1 wj_col.2.
Definition some_b {A} (o : option A) : bool := match o with Some _ => true | None => false end.
Lemma run_fit_ok opt d h : is_ok (scaler_fit elts opt d h) = true -> exists h', scaler_fit elts opt d h = Ok (run_fit opt d h, h').
Proof. unfold run_fit. destruct (scaler_fit elts opt d h) as [[sc h']|]; [|done]. by exists h'. Qed.
Definition back_sc (text : string) : scaler f64_arith := default no_sc (fst <$> scaler_unmarshal text).
Lemma back_sc_ok text : some_b (scaler_unmarshal text) = true -> scaler_unmarshal text = Some (back_sc text, ScalerOpt false false false).
Proof. unfold back_sc, scaler_unmarshal. by destruct (unmarshal scaler_of text). Qed.
Definition sc_text (sc : scaler f64_arith) : string := default "" (scaler_marshal (sc, wj_opt)).
Lemma sc_text_ok sc : some_b (scaler_marshal (sc, wj_opt)) = true -> scaler_marshal (sc, wj_opt) = Some (sc_text sc).
Proof. unfold sc_text. by destruct (scaler_marshal (sc, wj_opt)). Qed.
Definition wj_refit := run_fit (ScalerOpt false false false) wj_col.1 wj_col.2.
Lemma C88_options_refuted_main : exists (h : heap) (d : dframe) (opt opt' : scaler_opt) (sc sc2 sc' : scaler f64_arith) (h1 h2 : heap) (text : string),
  wf h d /\ exact_numbers /\ scaler_fit elts opt d h = Ok (sc, h1) /\ scaler_marshal (sc, opt) = Some text /\ scaler_unmarshal text = Some (sc2, opt') /\
  scaler_fit elts opt' d h = Ok (sc', h2) /\ is_Some (sc_shift sc !! "x") /\ is_Some (sc_shift sc2 !! "x") /\ size (sc_shift sc') = 0 /\ size (sc_scale sc') = 0.
Proof.
  destruct (run_fit_ok wj_opt wj_col.1 wj_col.2) as [h1 E1]; [by vm_compute|].
  destruct (run_fit_ok (ScalerOpt false false false) wj_col.1 wj_col.2) as [h2 E2]; [by vm_compute|].
  exists wj_col.2, wj_col.1, wj_opt, (ScalerOpt false false false), wj_sc, (back_sc (sc_text wj_sc)), wj_refit, h1, h2, (sc_text wj_sc).
  split; [apply (wf_check_sound _ _ 4); by vm_compute|]. split; [exact toy_exact|]. split; [exact E1|]. split; [apply sc_text_ok; by vm_compute|].
  split; [apply back_sc_ok; by vm_compute|]. split; [exact E2|]. split; [by vm_compute; eexists|]. split; [by vm_compute; eexists|]. split; by vm_compute.
Qed.
(** A column without values: the mean is NaN, Marshal fails. *)
Definition wj_nan : dframe * heap := one_col [S754_nan; S754_nan].
Definition wj_nopt := AutoOpt true false [].
Lemma C88_missing_refuted_main : exists (h : heap) (d : dframe) (p : auto) (h' : heap), wf h d /\ exact_numbers /\ good_names (abs h d) /\ good_floats (abs h d) /\
  auto_fit elts ord0 (new_auto wj_nopt) d h = Ok (p, h') /\ marshal auto_json p = None.
Proof.
  exists wj_nan.2, wj_nan.1, (run_autofit wj_nopt (new_auto wj_nopt) wj_nan).1, (run_autofit wj_nopt (new_auto wj_nopt) wj_nan).2.
  split; [apply (wf_check_sound _ _ 2); by vm_compute|]. split; [exact toy_exact|].
  destruct (good_check_sound (abs wj_nan.2 wj_nan.1)) as [H1 H2]; [by vm_compute|]. split; [done|]. split; [done|].
  assert (Hok : is_ok (auto_fit elts ord0 (new_auto wj_nopt) wj_nan.1 wj_nan.2) = true) by (by vm_compute).
  split; [|by vm_compute]. unfold run_autofit. by destruct (auto_fit elts ord0 (new_auto wj_nopt) wj_nan.1 wj_nan.2) as [[p h']|].
Qed.
(** Names in Latin-1: two columns become one. *)
Definition latin_e : string := String (ascii_of_nat 233) "".
Definition latin_o : string := String (ascii_of_nat 242) "".
Definition wj_latin : scaler f64_arith := Scaler (A:=f64_arith) {[latin_e := fz 1; latin_o := fz 2]} {[latin_e := fz 1; latin_o := fz 2]}.
Definition wj_latin2 : scaler f64_arith := back_sc (sc_text wj_latin).
Lemma C88_names_refuted_main : exists sc sc' : scaler f64_arith, exact_numbers /\ scaler_nums is_f64 sc /\ scaler_nums finite sc /\
  (scaler_marshal (sc, wj_opt) ≫= scaler_unmarshal) = Some (sc', ScalerOpt false false false) /\
  size (sc_shift sc) = 2 /\ size (sc_shift sc') = 1 /\ forall c, is_Some (sc_shift sc !! c) -> sc_shift sc' !! c = None.
Proof.
  exists wj_latin, wj_latin2. split; [exact toy_exact|].
  assert (HX : forall x, x = fz 1 \/ x = fz 2 -> is_f64 x /\ finite x) by (intros x [-> | ->]; split; try done; by vm_compute).
  assert (HL : forall c x, ({[latin_e := fz 1; latin_o := fz 2]} : gmap string f64) !! c = Some x -> (c = latin_e \/ c = latin_o) /\ (x = fz 1 \/ x = fz 2)).
  { intros c x. rewrite lookup_insert_Some, lookup_singleton_Some. naive_solver. }
  split; [split; intros c x Hc; apply HX; by apply (HL c)|]. split; [split; intros c x Hc; apply HX; by apply (HL c)|].
  split; [rewrite (sc_text_ok wj_latin) by (by vm_compute); cbn [mbind option_bind]; apply back_sc_ok; by vm_compute|].
  split; [by vm_compute|]. split; [by vm_compute|]. intros c [x Hx]. apply HL in Hx as [[-> | ->] _]; by vm_compute.
Qed.
End wit.
