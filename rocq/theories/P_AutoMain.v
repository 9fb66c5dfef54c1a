(** AutoPreprocessor: the properties. *)
From Verif Require Import P_OneHotMain P_Hash P_View2 P_PrepMain.
From Verif Require Export P_Auto6.

Section main.
Context {rt : GoRT}.
Context (order : gset string -> list string) (Ho : forall X, order X ≡ₚ elements X).
Context (ord : string -> bool -> gset Z -> list Z) (Hord : forall c b X, ord c b X ≡ₚ elements X).

(** ** Fit *)
Lemma C58_fit_main opt h d : wf h d -> strings_ok (abs h d) ->
  match auto_fit order ord (new_auto opt) d h with
  | Ok (p, h') => preserved h h' /\ auto_fitted opt (abs h d) p /\ (t_rows (abs h d) <> 0 \/ forall c, ~ categorical (abs h d) c)
  | Panic => t_rows (abs h d) = 0 /\ exists c, categorical (abs h d) c
  end.
Proof.
  intros W HS. pose proof (train_spec order Ho ord Hord opt h d W HS) as H. unfold auto_fit, bind.
  destruct (auto_train order ord (new_auto opt) d h) as [[[[p v] cols] h']|]; [|done].
  destruct H as (X & HA & _ & _ & _ & _ & Hz). unfold ret. cbn [fst snd]. split; [by apply ext_preserved|done].
Qed.

(** ** FitTransform *)
Definition auto_rest (p : auto) (cols : list string) (d : dframe) : M (auto * dframe) :=
  let* r := unshare (d_raw (view d)) cols in
  let v := set_raw (view d) r in
  let* f := deref (ap_imputer p) in
  imputer_transform order f v ;;*
  let* s := deref (ap_scaler p) in
  scaler_transform order s v ;;*
  ret (p, v).
Lemma fit_transform_eq p0 d h : auto_fit_transform order ord p0 d h =
  (let* x := auto_train order ord p0 d in
   match ap_onehot x.1.1 with
   | Some e => let* w := oh_transform e x.1.2 in match w with Some d => auto_rest x.1.1 x.2 d | None => panic end
   | None => if negb (ao_imputing (ap_opt x.1.1)) && negb (ao_scaling (ap_opt x.1.1)) then ret (x.1.1, x.1.2) else auto_rest x.1.1 x.2 x.1.2
   end) h.
Proof. done. Qed.
Lemma rest_spec p f s F cols h d : ap_imputer p = Some f -> ap_scaler p = Some s -> floats_of p F -> wf h d ->
  (cols = [] \/ list_to_set cols = F) -> (forall c, c ∈ F -> is_Some (t_cols (abs h d) !! (KFloat, c))) ->
  exists v h', auto_rest p cols d h = Ok ((p, v), h') /\ ext h h' /\ wf h' v /\ abs h' v = prep_floats (reps d) p (abs h d).
Proof.
  intros EI ES HP W Hcols HF. destruct (detach_prep h d cols F W Hcols HF) as (v & hv & E & P).
  destruct (prep_run order Ho p F h d hv v HP P HF) as (h' & E' & (D & _ & Ea)). rewrite EI, ES in E'.
  unfold detached_view in E. unfold auto_rest. unfold bind in E |- *.
  destruct (unshare (d_raw (view d)) cols h) as [[r h1]|]; [|done]. unfold ret in E. injection E as <- <-.
  change (set_raw (view d) r) with (set_raw d r). rewrite EI. unfold deref, ret. unfold bind in E'.
  destruct (imputer_transform order f (set_raw d r) h1) as [[[] h2]|]; [|done]. rewrite ES. cbn beta iota.
  rewrite E'. exists (set_raw d r), h'. split; [done|]. destruct D as (? & ? & _). done.
Qed.
Lemma cats_ready opt t p e c : auto_fitted opt t p -> strings_ok t -> ap_onehot p = Some e -> c ∈ en_cats e ->
  is_Some (t_cols (prep_strings p t) !! (KInt, c)) /\ c ∉ t_strs (prep_strings p t).
Proof.
  intros HA [HS _] EO Hc. pose proof (proj1 (fitted_cats opt t p e c HA EO) Hc) as Hcat. unfold categorical in Hcat.
  pose proof (af_hash _ _ _ HA) as H. unfold prep_strings. destruct (ap_hash p) as [cols|] eqn:EH.
  - destruct H as [Hne HP]. rewrite decide_False in Hcat by done. assert (Hcols : c ∈ cols) by (by rewrite HP, elem_of_elements). split.
    + rewrite C24_hashed_columns_main by (intros c' Hc'; apply HS; rewrite HP, elem_of_elements in Hc'; done). rewrite decide_True by done.
      destruct (HS c Hcat) as [x Hx]. rewrite Hx. by eexists.
    + unfold t_hash. cbn [t_strs]. rewrite elem_of_filter. naive_solver.
  - rewrite decide_True in Hcat by done. rewrite H. split; [done|set_solver].
Qed.
(** Fitted preprocessors can be applied to their training data. *)
Lemma fitted_inputs opt t p : auto_fitted opt t p -> strings_ok t -> has_inputs p t.
Proof.
  intros HA [HS1 HS2]. pose proof HA as [_ HI HSc HH HO]. split; [|split; [|split; [|split]]].
  - intros f c E Hc. rewrite E in HI. destruct HI as [_ HI]. apply HI in Hc. apply Hc.
  - intros s c E Hc. rewrite E in HSc. destruct HSc as [_ HSc]. unfold scale_names in Hc. apply elem_of_union in Hc as [Hc|Hc]; apply HSc in Hc; apply Hc.
  - intros cols c E Hc. rewrite E in HH. destruct HH as [_ HP]. apply HS1. by rewrite HP, elem_of_elements in Hc.
  - intros cols E. rewrite E in HH. destruct HH as [Hne HP]. destruct HS2 as [|(k & Hk & Hk2)]; [done|]. exists k. split; [done|].
    by rewrite HP, elem_of_elements.
  - intros e c EH EO Hc. rewrite EH in HH. apply (fitted_cats opt t p e c HA EO) in Hc. unfold categorical in Hc. by rewrite decide_True in Hc.
Qed.

Lemma C58_fit_transform_partial_main opt h d : wf h d -> unique_names (abs h d) -> strings_ok (abs h d) -> no_clash (abs h d) ->
  (ao_imputing opt = true /\ ao_scaling opt = true \/
   ao_imputing opt = false /\ ao_scaling opt = false /\ forall c, ~ categorical (abs h d) c) ->
  match auto_fit_transform order ord (new_auto opt) d h with
  | Ok ((p, v), h') => wf h' v /\ preserved h h' /\ exists h1, auto_fit order ord (new_auto opt) d h = Ok (p, h1) /\
      forall order', (forall X, order' X ≡ₚ elements X) -> exists w h2, auto_transform order' p d h1 = Ok (Some w, h2) /\
        wf h2 w /\ preserved h h2 /\ abs h2 w = abs h' v
  | Panic => auto_fit order ord (new_auto opt) d h = Panic
  end.
Proof.
  intros W HU HS HN HO. pose proof (train_spec order Ho ord Hord opt h d W HS) as H. rewrite fit_transform_eq. unfold auto_fit.
  unfold bind at 1 3 4. destruct (auto_train order ord (new_auto opt) d h) as [[[[p v] cols] h1]|]; [|done].
  destruct H as (X & HA & Wv & Ei & Ea & Hcols & _). unfold ret at 3. cbn [fst snd].
  (* Fit then TransformView *)
  assert (HT : forall order', (forall X, order' X ≡ₚ elements X) -> exists w h2, auto_transform order' p d h1 = Ok (Some w, h2) /\
    wf h2 w /\ preserved h h2 /\ prepared_as (reps d) p (abs h d) (abs h2 w)).
  { intros order' Ho'. assert (W1 : wf h1 d) by (by eapply ext_wf). assert (A1 : abs h1 d = abs h d) by (by apply ext_abs).
    destruct (transform_spec order' Ho' opt (abs h d) p h1 d HA HN W1) as (w & h2 & E2 & W2 & P2 & _ & A2);
      [by rewrite A1|rewrite A1; apply HS|rewrite A1; by eapply fitted_inputs|].
    exists w, h2. rewrite A1 in A2. split; [done|]. split; [done|]. split; [|done]. eapply preserved_trans; [|done]. by apply ext_preserved. }
  destruct (fitted_floats opt (abs h d) p HA) as (F & HF & HFu & HF0).
  pose proof (af_opt _ _ _ HA) as EO.
  assert (Hcol : exists k, ap_onehot p = None /\ negb (ao_imputing (ap_opt p)) && negb (ao_scaling (ap_opt p)) = true /\ k = 0 \/
    (exists f s, ap_imputer p = Some f /\ ap_scaler p = Some s /\ k = 1)).
  { destruct HO as [[O1 O2]|(O1 & O2 & O3)].
    - pose proof (af_imputer _ _ _ HA) as B1. pose proof (af_scaler _ _ _ HA) as B2. rewrite O1 in B1. rewrite O2 in B2.
      destruct (ap_imputer p) as [f|] eqn:EI; [|done]. destruct (ap_scaler p) as [s|] eqn:ES; [|done]. exists 1. right. eauto.
    - exists 0. left. split; [|by rewrite EO, O1, O2]. pose proof (af_onehot _ _ _ HA) as B. destruct (ap_onehot p); [|done].
      destruct B as ((c & Hc) & _). by apply O3 in Hc. }
  destruct Hcol as (k & [(EN & EB & _)|(f & s & EI & ES & _)]).
  - rewrite EN, EB. unfold ret. split; [done|]. split; [by apply ext_preserved|]. exists h1. split; [done|]. intros order' Ho'.
    destruct (HT order' Ho') as (w & h2 & E2 & W2 & P2 & A2). exists w, h2. do 3 (split; [done|]). unfold prepared_as in A2. rewrite EN in A2.
    rewrite A2, Ea. f_equal. unfold prep_floats. 
    pose proof (af_imputer _ _ _ HA) as B1. pose proof (af_scaler _ _ _ HA) as B2. rewrite EO in EB.
    destruct (ap_imputer p); [destruct B1 as [B1 _]; by rewrite B1 in EB|]. destruct (ap_scaler p); [|done].
    destruct B2 as [B2 _]. rewrite B2 in EB. by destruct (ao_imputing opt).
  - assert (HFu' : forall c, c ∈ F <-> float_used opt (abs h d) c) by (intros c; apply HFu; left; eauto).
    assert (Hcols' : cols = [] \/ list_to_set cols = F).
    { destruct Hcols as [|Hcols]; [by left|]. right. apply set_eq. intros c. by rewrite elem_of_list_to_set, Hcols, HFu'. }
    assert (Hcat : forall c, c ∈ F -> ~ categorical (abs h d) c).
    { intros c Hc Hk. apply HFu' in Hc as [Hc _]. unfold categorical in Hk. destruct (decide _).
      - by specialize (HU _ _ _ Hc Hk).
      - by specialize (HU _ _ _ Hc (proj1 HS _ Hk)). }
    assert (HFp : forall c, c ∈ F -> t_cols (prep_strings p (abs h d)) !! (KFloat, c) = t_cols (abs h d) !! (KFloat, c)).
    { intros c Hc. unfold prep_strings. pose proof (af_hash _ _ _ HA) as B. destruct (ap_hash p) as [cs|]; [|done]. destruct B as [B1 B2].
      rewrite C24_hashed_columns_main; [|intros c' Hc'; apply HS; by rewrite B2, elem_of_elements in Hc']. rewrite decide_False; [done|].
      intros Hx. rewrite B2, elem_of_elements in Hx. apply (Hcat c Hc). unfold categorical. by rewrite decide_False. }
    assert (Hobj : forall cs c, ap_hash p = Some cs -> c ∈ cs -> is_Some (t_cols (abs h d) !! (KObj, c))).
    { intros cs c E Hc. pose proof (af_hash _ _ _ HA) as B. rewrite E in B. apply HS. by rewrite (proj2 B), elem_of_elements in Hc. }
    destruct (ap_onehot p) as [e|] eqn:EOH.
    + destruct (onehot_step opt (abs h d) p e h1 v HA HN EOH Wv) as (w & h2 & E2 & W2 & A2 & P2 & Ei2).
      { intros c Hc. rewrite Ea. by eapply cats_ready. }
      rewrite Ea in A2. unfold bind at 1. rewrite E2.
      destruct (rest_spec p f s F cols h2 w EI ES HF W2 Hcols') as (x & h3 & E3 & X3 & W3 & A3).
      { intros c Hc. rewrite (ec_others _ _ _ A2) by (by left). rewrite decide_False; [rewrite HFp by done; by apply HFu'|].
        intros [Hk _]. apply (fitted_cats opt (abs h d) p e c HA EOH) in Hk. by apply (Hcat c). }
      rewrite E3. split; [done|]. split.
      { eapply preserved_trans; [by apply ext_preserved|]. eapply preserved_trans; [exact P2|]. by apply ext_preserved. }
      exists h1. split; [done|]. intros order' Ho'. destruct (HT order' Ho') as (y & h4 & E4 & W4 & P4 & A4). exists y, h4.
      do 3 (split; [done|]). unfold prepared_as in A4. rewrite EOH in A4. rewrite prep_commute in A4 by done.
      rewrite A3, (reps_ind w d) by congruence. pose proof (prep_encoded (reps d) p e _ _ A2) as A5.
      pose proof (af_onehot _ _ _ HA) as B. rewrite EOH in B. destruct B as (_ & t1 & B & _).
      eapply encoded_unique; [exact B| | |exact A4|exact A5].
      * assert (Hok : t_ok (prep_strings p (abs h d))) by (rewrite <- Ea; by apply abs_ok).
        unfold prep_floats. rewrite EI, ES, t_update_1. by apply t_update_n_ok, t_update_n_ok.
      * intros c Hc. apply prep_floats_dom. by eapply cats_ready.
    + assert (EB : negb (ao_imputing (ap_opt p)) && negb (ao_scaling (ap_opt p)) = false).
      { pose proof (af_imputer _ _ _ HA) as B1. rewrite EI in B1. destruct B1 as [B1 _]. by rewrite EO, B1. }
      rewrite EB. destruct (rest_spec p f s F cols h1 v EI ES HF Wv Hcols') as (x & h3 & E3 & X3 & W3 & A3).
      { intros c Hc. rewrite Ea, HFp by done. by apply HFu'. }
      rewrite E3. split; [done|]. split; [eapply preserved_trans; by apply ext_preserved|].
      exists h1. split; [done|]. intros order' Ho'. destruct (HT order' Ho') as (y & h4 & E4 & W4 & P4 & A4). exists y, h4.
      do 3 (split; [done|]). unfold prepared_as in A4. rewrite EOH in A4. rewrite prep_commute in A4 by done.
      by rewrite A3, (reps_ind v d), Ea, A4.
Qed.

(** With other options FitTransform of a fresh preprocessor does not return. *)
Lemma fit_train_opt p0 d h p v cols h' : auto_train order ord p0 d h = Ok (p, v, cols, h') -> ap_opt p = ap_opt p0 /\
  (ao_imputing (ap_opt p0) = false -> ap_imputer p = ap_imputer p0) /\ (ao_scaling (ap_opt p0) = false -> ap_scaler p = ap_scaler p0).
Proof.
  unfold auto_train. intros H. apply bind_inv in H as (m & h1 & _ & H). apply bind_inv in H as (p1 & h2 & E1 & H).
  apply bind_inv in H as ([[p2 v2] cats] & h3 & E2 & H). apply bind_inv in H as (p3 & h4 & E3 & H). unfold ret in H. cbn [fst snd] in *.
  injection H as <- <- <- <-.
  assert (Q1 : ap_opt p1 = ap_opt p0 /\ (ao_imputing (ap_opt p0) = false -> ap_imputer p1 = ap_imputer p0) /\ (ao_scaling (ap_opt p0) = false -> ap_scaler p1 = ap_scaler p0)).
  { unfold auto_fit_floats in E1. destruct (_ || _); [|by injection E1 as <- <-]. apply bind_inv in E1 as (w & g1 & _ & E1).
    apply bind_inv in E1 as (im & g2 & Ei & E1). apply bind_inv in E1 as (sc & g3 & Es & E1). injection E1 as <- <-. cbn [ap_opt ap_imputer ap_scaler].
    split; [done|]. split; intros HX; rewrite HX in *; [by injection Ei as <- _|by injection Es as <- _]. }
  assert (Q2 : ap_opt p2 = ap_opt p1 /\ ap_imputer p2 = ap_imputer p1 /\ ap_scaler p2 = ap_scaler p1).
  { unfold auto_fit_hash in E2. apply bind_inv in E2 as (? & ? & _ & E2). apply bind_inv in E2 as (? & ? & _ & E2). destruct (decide _).
    - apply bind_inv in E2 as (? & ? & _ & E2). apply bind_inv in E2 as (? & ? & _ & E2). by injection E2 as <- <- <- <-.
    - by injection E2 as <- <- <- <-. }
  assert (Q3 : ap_opt p3 = ap_opt p2 /\ ap_imputer p3 = ap_imputer p2 /\ ap_scaler p3 = ap_scaler p2).
  { unfold auto_fit_onehot in E3. destruct (decide _); [by injection E3 as <- <-|].
    apply bind_inv in E3 as (? & ? & _ & E3). apply bind_inv in E3 as (? & ? & _ & E3). by injection E3 as <- <-. }
  destruct Q1 as (Q1 & Q1' & Q1''), Q2 as (Q2 & Q2' & Q2''), Q3 as (Q3 & Q3' & Q3''). split; [congruence|]. split; intros HX; [rewrite Q3', Q2'; auto|rewrite Q3'', Q2''; auto].
Qed.
Lemma rest_panic p cols d h : ap_imputer p = None \/ ap_scaler p = None -> auto_rest p cols d h = Panic.
Proof.
  intros H. unfold auto_rest, bind. destruct (unshare _ cols h) as [[r h1]|]; [|done].
  destruct (ap_imputer p) as [f|]; [|done]. unfold deref, ret. destruct (imputer_transform order f _ h1) as [[[] h2]|]; [|done].
  destruct H as [H|H]; [done|]. by rewrite H.
Qed.
Lemma C58_fit_transform_panics_main opt h d : wf h d -> strings_ok (abs h d) ->
  (ao_imputing opt <> ao_scaling opt \/
   ao_imputing opt = false /\ ao_scaling opt = false /\ exists c, categorical (abs h d) c) ->
  auto_fit_transform order ord (new_auto opt) d h = Panic.
Proof.
  intros W HS HO. rewrite fit_transform_eq. pose proof (train_spec order Ho ord Hord opt h d W HS) as H. unfold bind at 1.
  destruct (auto_train order ord (new_auto opt) d h) as [[[[p v] cols] h1]|] eqn:E; [|done].
  apply fit_train_opt in E as (EO & E1 & E2). cbn [ap_opt new_auto ap_imputer ap_scaler] in *. cbn [fst snd].
  destruct H as (_ & HA & _).
  assert (HP : ap_imputer p = None \/ ap_scaler p = None).
  { destruct (ao_imputing opt) eqn:O1; [|left; by apply E1]. right. destruct (ao_scaling opt) eqn:O2; [|by apply E2]. naive_solver. }
  destruct (ap_onehot p) as [e|] eqn:EOH.
  - unfold bind. destruct (oh_transform e v h1) as [[[w|] h2]|]; [by apply rest_panic|done|done].
  - destruct (negb _ && negb _) eqn:EB; [|by apply rest_panic]. exfalso. rewrite EO in EB.
    destruct HO as [HO|(O1 & O2 & c & Hc)]; [destruct (ao_imputing opt), (ao_scaling opt); done|].
    pose proof (af_onehot _ _ _ HA) as B. rewrite EOH in B. by apply (B c).
Qed.

(** ** TransformView *)
Lemma C58_transform_main opt t0 p h d : auto_fitted opt t0 p -> no_clash t0 -> wf h d -> unique_names (abs h d) ->
  (forall c, c ∈ t_strs (abs h d) -> is_Some (t_cols (abs h d) !! (KObj, c))) -> has_inputs p (abs h d) ->
  exists v h', auto_transform order p d h = Ok (Some v, h') /\ wf h' v /\ preserved h h' /\
    prepared_as (reps d) p (abs h d) (abs h' v).
Proof.
  intros HA HN W HU HO HI. destruct (transform_spec order Ho opt t0 p h d HA HN W HU HO HI) as (v & h' & E & A & B & _ & C). eauto 10.
Qed.
End main.

(** Columns that are neither scaled nor categorical. *)
Lemma C58_excluded_partial_main opt t0 p n t t' k c : auto_fitted opt t0 p -> prepared_as n p t t' ->
  (forall cols c, ap_hash p = Some cols -> c ∈ cols -> is_Some (t_cols t !! (KObj, c))) ->
  ~ categorical t0 c -> (k = KFloat -> ~ float_used opt t0 c) -> (k = KBool -> forall e, ap_onehot p = Some e -> c ∉ en_new e) ->
  t_cols t' !! (k, c) = t_cols t !! (k, c).
Proof.
  intros HA HP HH Hcat Hfl Hb.
  assert (H1 : t_cols (prep_floats n p t) !! (k, c) = t_cols t !! (k, c)).
  { destruct (decide (k = KFloat)) as [->|Hk]; [|by apply prep_floats_other]. specialize (Hfl eq_refl). unfold prep_floats.
    assert (HX : t_cols (match ap_imputer p with Some f => t_update (dom f) (impute_with f) t | None => t end) !! (KFloat, c) = t_cols t !! (KFloat, c)).
    { pose proof (af_imputer _ _ _ HA) as B. destruct (ap_imputer p); [|done]. rewrite t_update_1. apply t_update_n_other. right. intros Hx. simpl in Hx. by apply B in Hx. }
    pose proof (af_scaler _ _ _ HA) as B. destruct (ap_scaler p) as [s|]; [|done]. rewrite t_update_n_other; [exact HX|]. right. simpl. unfold scale_names.
    rewrite elem_of_union. intros [Hx|Hx]; by apply B in Hx. }
  assert (H2 : t_cols (prep_strings p (prep_floats n p t)) !! (k, c) = t_cols t !! (k, c)).
  { unfold prep_strings. pose proof (af_hash _ _ _ HA) as B. destruct (ap_hash p) as [cs|] eqn:EH; [|done].
    rewrite C24_hashed_columns_main by (intros c' Hc'; apply prep_floats_dom; by eapply HH). rewrite decide_False; [done|].
    intros Hx. apply Hcat. unfold categorical. rewrite decide_False by apply B. by rewrite (proj2 B), elem_of_elements in Hx. }
  unfold prepared_as in HP. destruct (ap_onehot p) as [e|] eqn:EO; [|by rewrite HP].
  rewrite (ec_others _ _ _ HP); [|simpl; destruct (decide (k = KBool)); [right; by apply Hb|by left]].
  rewrite decide_False; [done|]. simpl. intros [Hx _]. by apply Hcat, (fitted_cats opt t0 p e c HA EO).
Qed.

(** ** TransformedColumns *)
Lemma C74_columns_partial_main order (Ho : forall X : gset string, order X ≡ₚ elements X) opt t p h : auto_fitted opt t p ->
  match auto_columns order p h with
  | Ok (cols, h') => h' = h /\ ao_imputing opt = true /\ t_strs t <> ∅ /\ (forall c, c ∈ cols <-> float_used opt t c \/ categorical t c)
  | Panic => ao_imputing opt = false \/ t_strs t = ∅
  end.
Proof.
  intros HA. pose proof (af_imputer _ _ _ HA) as BI. pose proof (af_hash _ _ _ HA) as BH. unfold auto_columns, bind, deref, ret, panic.
  destruct (ap_imputer p) as [f|]; [|by left]. destruct BI as [BI BF]. destruct (ap_hash p) as [cols|]; [|by right]. destruct BH as [BH BC].
  split; [done|]. split; [done|]. split; [done|]. intros c.
  rewrite elem_of_app, (proj2 (proj2 (order_nodup order _ (Ho _)))), (proj1 (BF c)), BC, elem_of_elements.
  unfold categorical. by rewrite decide_False.
Qed.

(** ** Concrete cases *)
Definition unique_check (t : table) : bool :=
  let L := (map_to_list (t_cols t)).*1 in forallb (fun k1 => forallb (fun k2 => bool_decide (k1.2 = k2.2 -> k1.1 = k2.1)) L) L.
Lemma unique_check_sound t : unique_check t = true -> unique_names t.
Proof.
  intros H k1 k2 c [x1 H1] [x2 H2]. unfold unique_check in H. rewrite forallb_forall in H.
  assert (I : forall k x, t_cols t !! (k, c) = Some x -> In (k, c) (map_to_list (t_cols t)).*1).
  { intros k x Hx. apply elem_of_list_In, elem_of_list_fmap. exists ((k, c), x). split; [done|]. by apply elem_of_map_to_list. }
  specialize (H _ (I _ _ H1)). rewrite forallb_forall in H. specialize (H _ (I _ _ H2)). apply bool_decide_eq_true in H. by apply H.
Qed.
Lemma string_app_ne (a b : string) : b <> "" -> a +:+ b <> a.
Proof. intros Hb. induction a as [|x a IH]; simpl; [done|]. intros E. injection E as E. by apply IH. Qed.
Lemma no_clash_one t c0 : (forall c, categorical t c -> c = c0) -> no_clash t.
Proof.
  intros H c c' i Hc Hc'. rewrite (H _ Hc), (H _ Hc'). unfold onehot_name, missing_name. split; intros E; symmetry in E; by apply string_app_ne in E.
Qed.
Section wit.
Existing Instance ex_rt.
Definition wa_opt := AutoOpt true true [].
Definition no_auto := new_auto wa_opt.
Definition run_autofit (opt : auto_opt) (p0 : auto) (p : dframe * heap) : auto * heap := match auto_fit elts ord0 p0 p.1 p.2 with Ok x => x | Panic => (no_auto, heap0) end.
Definition run_autotr (a : auto) (p : dframe * heap) : dframe * heap := match auto_transform elts a p.1 p.2 with Ok (Some v, h) => (v, h) | _ => (dummy, heap0) end.
Definition run_autoft (p0 : auto) (p : dframe * heap) : dframe * heap := match auto_fit_transform elts ord0 p0 p.1 p.2 with Ok ((_, v), h) => (v, h) | _ => (dummy, heap0) end.
Definition is_ok {A} (r : res (A * heap)) : bool := match r with Ok _ => true | Panic => false end.
Definition wa : dframe * heap := (ex_d, ex_h).
Definition wv : dframe * heap := (ex_v, ex_vh).
Definition wa_fit := run_autofit wa_opt (new_auto wa_opt) wa.
Definition wa_tr := run_autotr wa_fit.1 (ex_d, wa_fit.2).
Definition wa_ft := run_autoft (new_auto wa_opt) wa.

Lemma C58_check_main : wf ex_h ex_d /\ unique_names (abs ex_h ex_d) /\ strings_ok (abs ex_h ex_d) /\ no_clash (abs ex_h ex_d) /\
  categorical (abs ex_h ex_d) "s" /\ auto_fitted wa_opt (abs ex_h ex_d) wa_fit.1 /\ has_inputs wa_fit.1 (abs ex_h ex_d) /\
  show KFloat "b" wa_ft.2 wa_ft.1 = show KFloat "b" wa_tr.2 wa_tr.1 /\ show KFloat "b" wa_ft.2 wa_ft.1 <> show KFloat "b" ex_h ex_d /\
  show KBool "s_onehot0" wa_ft.2 wa_ft.1 = Some (VBool <$> [true; false; false; true]) /\
  show KBool "s_missing" wa_ft.2 wa_ft.1 = Some (VBool <$> [false; true; false; false]) /\
  (map_to_list (t_cols (abs wa_ft.2 wa_ft.1))).*1 ≡ₚ
    [(KBool, "f"); (KFloat, "b"); (KBool, "s_missing"); (KBool, "s_onehot0"); (KBool, "s_onehot1"); (KInt, "a")].
Proof.
  assert (HS : t_strs (abs ex_h ex_d) = {["s"]}) by (apply (bool_decide_unpack _); by vm_compute).
  assert (Hne : t_strs (abs ex_h ex_d) <> ∅) by (rewrite HS; apply non_empty_singleton_L).
  assert (HC : forall c, categorical (abs ex_h ex_d) c <-> c = "s").
  { intros c. unfold categorical. rewrite decide_False by done. rewrite HS. apply elem_of_singleton. }
  assert (HO : strings_ok (abs ex_h ex_d)).
  { split; [intros c; rewrite HS, elem_of_singleton; intros ->; apply (bool_decide_unpack _); by vm_compute|].
    right. exists (KInt, "a"). split; [apply (bool_decide_unpack _); by vm_compute|]. rewrite HS. by intros ?%elem_of_singleton. }
  split; [exact ex_wf|]. split; [apply unique_check_sound; by vm_compute|]. split; [done|].
  split; [apply (no_clash_one _ "s"); intros c; by rewrite HC|]. split; [by apply HC|].
  assert (HA : auto_fitted wa_opt (abs ex_h ex_d) wa_fit.1).
  { pose proof (C58_fit_main elts elts_perm ord0 ord0_perm wa_opt ex_h ex_d ex_wf HO) as H.
    assert (E : auto_fit elts ord0 (new_auto wa_opt) ex_d ex_h = Ok (wa_fit.1, wa_fit.2)) by (by vm_compute).
    rewrite E in H. apply H. }
  split; [done|]. split; [by eapply fitted_inputs|]. split; [by vm_compute|]. split; [by vm_compute|].
  split; [by vm_compute|]. split; [by vm_compute|]. apply (bool_decide_unpack _); by vm_compute.
Qed.
(** FitTransform without the scaler or without the imputer. *)
Definition w1_opt := AutoOpt true false [].
Definition w2_opt := AutoOpt false true [].
Lemma C58_fit_transform_refuted_main : exists opt p h1 v h2, wf ex_h ex_d /\
  auto_fit elts ord0 (new_auto opt) ex_d ex_h = Ok (p, h1) /\ auto_transform elts p ex_d h1 = Ok (Some v, h2) /\
  auto_fit_transform elts ord0 (new_auto opt) ex_d ex_h = Panic.
Proof.
  exists w1_opt, (run_autofit w1_opt (new_auto w1_opt) wa).1, (run_autofit w1_opt (new_auto w1_opt) wa).2,
    (run_autotr (run_autofit w1_opt (new_auto w1_opt) wa).1 (ex_d, (run_autofit w1_opt (new_auto w1_opt) wa).2)).1,
    (run_autotr (run_autofit w1_opt (new_auto w1_opt) wa).1 (ex_d, (run_autofit w1_opt (new_auto w1_opt) wa).2)).2.
  split; [exact ex_wf|]. split_and!; by vm_compute.
Qed.
(** All the float columns excluded: they are transformed, and excluded string
    columns are always encoded. *)
Definition w3_opt := AutoOpt true true ["b"; "s"].
Lemma C58_excluded_refuted_main : exists opt p v h, wf ex_h ex_d /\ "b" ∈ ao_exclude opt /\ "s" ∈ ao_exclude opt /\
  auto_fit_transform elts ord0 (new_auto opt) ex_d ex_h = Ok ((p, v), h) /\
  t_cols (abs h v) !! (KFloat, "b") <> t_cols (abs ex_h ex_d) !! (KFloat, "b") /\
  t_cols (abs h v) !! (KObj, "s") = None /\ is_Some (t_cols (abs ex_h ex_d) !! (KObj, "s")).
Proof.
  exists w3_opt, (run_autofit w3_opt (new_auto w3_opt) wa).1, (run_autoft (new_auto w3_opt) wa).1, (run_autoft (new_auto w3_opt) wa).2.
  split; [exact ex_wf|]. do 2 (split; [apply (bool_decide_unpack _); by vm_compute|]). split; [by vm_compute|]. split; [by vm_compute|]. split; [by vm_compute|].
  apply (bool_decide_unpack _); by vm_compute.
Qed.
(** Training again on data without strings: the old StringToInt stays. *)
Definition w4 : dframe * heap := run_df (let* r := new_raw in
  let* r := b_add KInt r "a" [VInt 5; VInt 3] in
  let* r := b_add KFloat r "b" [VFloat f_half; VFloat f64_zero] in to_dataframe r) ex_h.
Definition w4_fit := run_autofit wa_opt wa_fit.1 w4.
Lemma C58_refit_refuted_main : exists p0 d h p1 v1 h1 p h2, wf h d /\ auto_fitted wa_opt (abs ex_h ex_d) p0 /\
  auto_fit_transform elts ord0 p0 d h = Ok ((p1, v1), h1) /\
  auto_fit elts ord0 p0 d h = Ok (p, h2) /\ auto_transform elts p d h2 = Panic.
Proof.
  exists wa_fit.1, w4.1, w4.2, w4_fit.1, (run_autoft wa_fit.1 w4).1, (run_autoft wa_fit.1 w4).2, w4_fit.1, w4_fit.2.
  split; [apply (wf_check_sound _ _ 2); by vm_compute|]. split; [apply C58_check_main|]. split_and!; by vm_compute.
Qed.
(** Nothing but strings: Fit changes the columns of its argument. *)
Definition w5 : dframe * heap := run_df (let* r := new_raw in
  let* r := b_add KObj r "s" [VObj (OStr "x"); VObj ONil] in let* r := b_mark r "s" in to_dataframe r) heap0.
Lemma C58_original_refuted_main : exists d h p h', wf h d /\ auto_fit elts ord0 (new_auto wa_opt) d h = Ok (p, h') /\
  t_cols (abs h d) !! (KInt, "s") = None /\ is_Some (t_cols (abs h' d) !! (KInt, "s")).
Proof.
  exists w5.1, w5.2, (run_autofit wa_opt (new_auto wa_opt) w5).1, (run_autofit wa_opt (new_auto wa_opt) w5).2.
  split; [apply (wf_check_sound _ _ 2); by vm_compute|]. split; [by vm_compute|]. split; [by vm_compute|]. apply (bool_decide_unpack _); by vm_compute.
Qed.
(** TransformedColumns. *)
Lemma C74_check_main : auto_columns elts wa_fit.1 wa_fit.2 = Ok (["b"; "s"], wa_fit.2).
Proof. by vm_compute. Qed.
Lemma C74_columns_refuted_main : exists d h p h', wf h d /\ auto_fit elts ord0 (new_auto wa_opt) d h = Ok (p, h') /\
  auto_columns elts p h' = Panic.
Proof.
  exists w4.1, w4.2, (run_autofit wa_opt (new_auto wa_opt) w4).1, (run_autofit wa_opt (new_auto wa_opt) w4).2.
  split; [apply (wf_check_sound _ _ 2); by vm_compute|]. split; by vm_compute.
Qed.
End wit.
