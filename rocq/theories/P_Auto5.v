(** AutoPreprocessor: training, the categorical part. *)
From Verif Require Import P_OneHotMain P_Hash P_View2 P_PrepMain.
From Verif Require Export P_Auto4.

Section train.
Context {rt : GoRT}.
Context (order : gset string -> list string) (Ho : forall X, order X ≡ₚ elements X).
Context (ord : string -> bool -> gset Z -> list Z) (Hord : forall c b X, ord c b X ≡ₚ elements X).

Lemma names_int h d c : c ∈ names_of KInt (mp h (r_maps (d_raw d))) <-> is_Some (t_cols (abs h d) !! (KInt, c)).
Proof.
  rewrite abs_cols_lookup. unfold names_of. rewrite elem_of_names. split.
  - intros (k & s & [Hs Hk]%map_filter_lookup_Some). simpl in Hk. subst. rewrite Hs. by eexists.
  - intros H. destruct (mp h (r_maps (d_raw d)) !! (KInt, c)) as [s|] eqn:E; [|by destruct H].
    exists KInt, s. by apply map_filter_lookup_Some.
Qed.

(** Hashing. *)
Lemma fit_hash_spec im sc opt h d : wf h d -> strings_ok (abs h d) ->
  exists hs v cats h', auto_fit_hash order (Auto None None im sc opt) d h = Ok (Auto hs None im sc opt, v, cats, h') /\
    ext h h' /\ wf h' v /\ d_ind v = d_ind d /\
    match hs with
    | Some cols => t_strs (abs h d) <> ∅ /\ cols ≡ₚ elements (t_strs (abs h d)) /\ abs h' v = t_hash cols (abs h d)
    | None => t_strs (abs h d) = ∅ /\ abs h' v = abs h d
    end /\ forall c, c ∈ cats <-> categorical (abs h d) c.
Proof.
  intros W [HS1 HS2]. set (t := abs h d). unfold auto_fit_hash. erewrite bind_eq by done. erewrite bind_eq by done.
  change (ostr h (r_strs (d_raw d))) with (t_strs t).
  assert (Hc : forall c, categorical t c <-> if decide (t_strs t = ∅) then is_Some (t_cols t !! (KInt, c)) else c ∈ t_strs t) by done.
  destruct (decide (0 < size (t_strs t))) as [Hs|Hs].
  - assert (Hne : t_strs t <> ∅) by (intros E; rewrite E, size_empty in Hs; lia).
    assert (Hcols : forall c, c ∈ order (t_strs t) <-> c ∈ t_strs t) by apply (order_nodup order _ (Ho _)).
    destruct (hash_strings_view_spec h d (order (t_strs t)) W) as (v & h' & E & Wv & X & Ea).
    + intros E. apply set_choose_L in Hne as [c Hc']. apply Hcols in Hc'. rewrite E in Hc'. by apply elem_of_nil in Hc'.
    + intros c Hc'. apply HS1. by apply Hcols.
    + destruct HS2 as [HS2|(k & Hk & Hk2)]; [done|]. exists k. split; [done|]. by rewrite Hcols.
    + unfold hash_encoder_fit, hash_encoder_transform. erewrite bind_eq by done. change (ostr h (r_strs (d_raw d))) with (t_strs t).
      rewrite (bind_eq _ _ _ _ _ E). cbn [ap_onehot ap_imputer ap_scaler ap_opt].
      exists (Some (order (t_strs t))), v, (order (t_strs t)), h'. split; [done|]. split; [done|]. split; [done|].
      split; [by eapply hash_strings_view_ind|]. split; [done|]. intros c. rewrite Hcols, Hc. by rewrite decide_False.
  - assert (E : t_strs t = ∅) by (apply leibniz_equiv, size_empty_inv; lia).
    exists None, d, (order (names_of KInt (mp h (r_maps (d_raw d))))), h. split; [done|]. split; [apply ext_refl|]. do 3 (split; [done|]).
    intros c. rewrite Hc, decide_True by done. rewrite (proj2 (proj2 (order_nodup order _ (Ho _)))). apply names_int.
Qed.

Lemma auto_oh_fixed : fixed auto_oh.
Proof. done. Qed.
Lemma no_fallback_auto vs : no_fallback auto_oh vs <-> vs = [].
Proof.
  unfold no_fallback, is_cat. simpl. split.
  - intros [[H1 [H|[H|[_ H]]]]|[H _]]; try done. destruct vs as [|z vs]; [done|]. exfalso. destruct (decide (z = -1)%Z) as [->|Hz].
    + apply H. by left.
    + apply (H1 z). split; [by left|done].
  - intros ->. left. split; [intros z [H _]; by apply elem_of_nil in H|]. right. right. split; [done|]. intros H. by apply elem_of_nil in H.
Qed.

(** One-hot encoding. *)
Definition cat_view (t : table) (cats : list string) (t2 : table) : Prop :=
  forall c, (categorical t c <-> c ∈ cats) /\ (c ∈ cats -> is_Some (t_cols t2 !! (KInt, c)) /\ t_ints t2 c = codes t c).
Lemma fit_onehot_spec t hs im sc opt h v cats : wf h v -> cat_view t cats (abs h v) -> t_rows (abs h v) = t_rows t ->
  match auto_fit_onehot order ord (Auto hs None im sc opt) v cats h with
  | Ok (p, h') => ext h h' /\ exists oh, p = Auto hs oh im sc opt /\
      match oh with
      | Some e => (exists c, categorical t c) /\ t_rows t <> 0 /\ exists t1, fitted auto_oh t1 e /\
          forall c, (is_Some (t_cols t1 !! (KInt, c)) <-> categorical t c) /\ (categorical t c -> t_ints t1 c = codes t c)
      | None => forall c, ~ categorical t c
      end
  | Panic => t_rows t = 0 /\ exists c, categorical t c
  end.
Proof.
  intros W HC HR. unfold auto_fit_onehot. destruct (decide (cats = [])) as [E|E].
  { unfold ret. split; [apply ext_refl|]. exists None. split; [done|]. intros c Hc. apply HC in Hc. rewrite E in Hc. by apply elem_of_nil in Hc. }
  destruct (column_view_spec h v cats W E) as (w & h1 & EV & Ea & Ww & X & _). rewrite (bind_eq _ _ _ _ _ EV).
  assert (HP : forall c, t_cols (abs h1 w) !! (KInt, c) = if decide (c ∈ cats) then t_cols (abs h v) !! (KInt, c) else None).
  { intros c. rewrite Ea. unfold t_project. cbn [t_cols]. apply project_lookup. }
  assert (HS : forall c, is_Some (t_cols (abs h1 w) !! (KInt, c)) <-> categorical t c).
  { intros c. rewrite HP, (proj1 (HC c)). destruct (decide (c ∈ cats)) as [Hc|Hc]; [|split; [by intros []|done]].
    split; [done|]. intros _. by apply HC. }
  assert (HI : forall c, categorical t c -> t_ints (abs h1 w) c = codes t c).
  { intros c Hc. apply HC in Hc. rewrite <- (proj2 (proj2 (HC c) Hc)). unfold t_ints. by rewrite HP, decide_True. }
  assert (HL : forall c, categorical t c -> (t_ints (abs h1 w) c = [] <-> t_rows t = 0)).
  { intros c Hc. apply HS in Hc as [x Hx]. destruct (abs_ok _ _ Ww _ _ Hx) as [Hl _]. unfold t_ints. rewrite Hx. simpl.
    assert (HR' : t_rows (abs h1 w) = t_rows t) by (rewrite Ea; exact HR). rewrite HR' in Hl. rewrite <- Hl. destruct x; done. }
  pose proof (oh_fit_spec order Ho ord Hord auto_oh w h1 auto_oh_fixed Ww) as H. unfold bind.
  destruct (oh_fit order ord auto_oh w h1) as [[e h2]|].
  - destruct H as (-> & HF & HN). unfold ret. split; [done|]. exists (Some e). split; [done|].
    destruct cats as [|c0 cats'] eqn:EC; [done|]. assert (Hc0 : categorical t c0) by (apply HC; by left).
    split; [by exists c0|]. split.
    + intros H0. apply (HN c0); [by apply HS|]. apply no_fallback_auto. by apply HL.
    + exists (abs h1 w). split; [exact HF|]. intros c. split; [apply HS|apply HI].
  - destruct H as (c & Hc & Hn). apply HS in Hc. apply no_fallback_auto in Hn. split; [by apply (HL c)|by exists c].
Qed.

Lemma hash_cat_view t cols t2 : strings_ok t -> t_strs t <> ∅ -> cols ≡ₚ elements (t_strs t) -> t2 = t_hash cols t ->
  forall c, c ∈ cols -> is_Some (t_cols t2 !! (KInt, c)) /\ t_ints t2 c = codes t c.
Proof.
  intros [HS _] Hne HP -> c Hc. assert (HO : forall c, c ∈ cols -> is_Some (t_cols t !! (KObj, c))).
  { intros c'. rewrite HP, elem_of_elements. apply HS. }
  assert (E : t_cols (t_hash cols t) !! (KInt, c) = fmap spec_hash <$> t_cols t !! (KObj, c)).
  { rewrite C24_hashed_columns_main by done. by rewrite decide_True. }
  destruct (HO c Hc) as [x Hx]. unfold t_ints, codes. rewrite E, decide_False by done. rewrite Hx. simpl. split; [by eexists|done].
Qed.

(** The whole training. *)
Lemma train_spec opt h d : wf h d -> strings_ok (abs h d) ->
  match auto_train order ord (new_auto opt) d h with
  | Ok (p, v, cols, h') => ext h h' /\ auto_fitted opt (abs h d) p /\ wf h' v /\ d_ind v = d_ind d /\
      abs h' v = prep_strings p (abs h d) /\ (cols = [] \/ forall c, c ∈ cols <-> float_used opt (abs h d) c) /\
      (t_rows (abs h d) <> 0 \/ forall c, ~ categorical (abs h d) c)
  | Panic => t_rows (abs h d) = 0 /\ exists c, categorical (abs h d) c
  end.
Proof.
  intros W HS. unfold auto_train. erewrite bind_eq by done. cbn [ap_opt new_auto].
  set (cols := order (names_of KFloat (mp h (r_maps (d_raw d))) ∖ list_to_set (ao_exclude opt))).
  destruct (fit_floats_spec order Ho opt h d W) as (im & sc & h1 & E1 & X1 & HI & HSc). fold cols in E1.
  rewrite (bind_eq _ _ _ _ _ E1).
  assert (W1 : wf h1 d) by (by eapply ext_wf). assert (A1 : abs h1 d = abs h d) by (by apply ext_abs).
  destruct (fit_hash_spec im sc opt h1 d W1) as (hs & v & cats & h2 & E2 & X2 & W2 & Ei & Hh & Hc); [by rewrite A1|]. rewrite A1 in Hh, Hc.
  rewrite (bind_eq _ _ _ _ _ E2). cbn [fst snd].
  assert (HV : cat_view (abs h d) cats (abs h2 v)).
  { intros c. split; [by rewrite Hc|]. intros Hin. destruct hs as [cs|].
    - destruct Hh as (B1 & B2 & B3). eapply hash_cat_view; [done|done|done|done|]. apply Hc in Hin. unfold categorical in Hin. rewrite decide_False in Hin by done.
      by rewrite B2, elem_of_elements.
    - destruct Hh as [B1 B2]. rewrite B2. apply Hc in Hin. unfold categorical, codes in *. by rewrite !decide_True in * by done. }
  assert (HR : t_rows (abs h2 v) = t_rows (abs h d)).
  { destruct hs as [cs|]; [destruct Hh as (_ & _ & ->); done|destruct Hh as (_ & ->); done]. }
  pose proof (fit_onehot_spec (abs h d) hs im sc opt h2 v cats W2 HV HR) as H. unfold bind.
  destruct (auto_fit_onehot order ord (Auto hs None im sc opt) v cats h2) as [[p h3]|]; [|done].
  destruct H as (X3 & oh & -> & Hoh). unfold ret. cbn [fst snd].
  split; [eapply ext_trans; [done|]; by eapply ext_trans|]. split.
  - split; cbn [ap_opt ap_imputer ap_scaler ap_hash ap_onehot]; [done|done|done| |].
    + destruct hs as [cs|]; [by destruct Hh as (? & ? & _)|by destruct Hh].
    + destruct oh as [e|]; [|done]. by destruct Hoh as (B1 & _ & B2).
  - split; [by eapply ext_wf|]. split; [done|]. split.
    + rewrite (ext_abs _ _ _ X3 W2). unfold prep_strings. cbn [ap_hash]. destruct hs as [cs|]; [by destruct Hh as (_ & _ & ?)|by destruct Hh].
    + split; [|destruct oh as [e|]; [left; by destruct Hoh as (_ & ? & _)|by right]].
      destruct (float_view order Ho h d opt W) as (? & ? & _ & _ & _ & _ & _ & Hcols). exact Hcols.
Qed.
End train.
