(** AutoPreprocessor: transforming. *)
From Verif Require Import P_OneHotMain P_Hash P_View2 P_PrepMain.
From Verif Require Export P_Auto5.

(** ** Tables *)
Lemma t_update_1 F g t : t_update F g t = t_update_n (fun _ => 1) F g t.
Proof.
  unfold t_update, t_update_n. f_equal. apply map_eq. intros k. rewrite !map_lookup_imap.
  destruct (t_cols t !! k) as [col|]; [|done]. simpl. destruct (decide _); [|done]. f_equal.
  unfold on_floats, repeat_floats. apply list_eq. intros j. rewrite list_lookup_imap, list_lookup_fmap. by destruct (col !! j).
Qed.
Lemma prep_floats_dom n p t k : is_Some (t_cols (prep_floats n p t) !! k) <-> is_Some (t_cols t !! k).
Proof.
  unfold prep_floats. destruct (ap_scaler p); [rewrite t_update_n_dom|]; (destruct (ap_imputer p); [by rewrite t_update_dom|done]).
Qed.
Lemma prep_floats_rest n p t : t_rows (prep_floats n p t) = t_rows t /\ t_strs (prep_floats n p t) = t_strs t.
Proof. unfold prep_floats. destruct (ap_scaler p), (ap_imputer p); done. Qed.
Lemma prep_floats_other n p t k c : k <> KFloat -> t_cols (prep_floats n p t) !! (k, c) = t_cols t !! (k, c).
Proof.
  intros Hk. unfold prep_floats.
  assert (H : t_cols (match ap_imputer p with Some f => t_update (dom f) (impute_with f) t | None => t end) !! (k, c) = t_cols t !! (k, c)).
  { destruct (ap_imputer p); [|done]. rewrite t_update_1. apply t_update_n_other. by left. }
  destruct (ap_scaler p); [|done]. rewrite t_update_n_other by (by left). exact H.
Qed.
Lemma prep_encoded n p e t Y : encoded e t Y -> encoded e (prep_floats n p t) (prep_floats n p Y).
Proof.
  intros E. unfold prep_floats.
  assert (H : encoded e (match ap_imputer p with Some f => t_update (dom f) (impute_with f) t | None => t end)
                        (match ap_imputer p with Some f => t_update (dom f) (impute_with f) Y | None => Y end)).
  { destruct (ap_imputer p); [|done]. rewrite !t_update_1. by apply encoded_update. }
  destruct (ap_scaler p); [|done]. by apply encoded_update.
Qed.
Lemma prep_commute n p t : (forall cols c, ap_hash p = Some cols -> c ∈ cols -> is_Some (t_cols t !! (KObj, c))) ->
  prep_strings p (prep_floats n p t) = prep_floats n p (prep_strings p t).
Proof.
  intros H. unfold prep_strings. destruct (ap_hash p) as [cols|]; [|done]. specialize (fun c => H cols c eq_refl). simpl in H.
  unfold prep_floats.
  assert (E : t_hash cols (match ap_imputer p with Some f => t_update (dom f) (impute_with f) t | None => t end) =
              match ap_imputer p with Some f => t_update (dom f) (impute_with f) (t_hash cols t) | None => t_hash cols t end).
  { destruct (ap_imputer p); [|done]. rewrite !t_update_1. by apply hash_update. }
  destruct (ap_scaler p); [|done]. rewrite hash_update; [by rewrite E|]. intros c Hc.
  destruct (ap_imputer p); [apply t_update_dom|]; by apply H.
Qed.

(** ** Fitted preprocessors *)
Lemma fitted_floats opt t p : auto_fitted opt t p -> exists F, floats_of p F /\
  (forall c, (exists f, ap_imputer p = Some f) \/ (exists s, ap_scaler p = Some s) -> c ∈ F <-> float_used opt t c) /\
  (ap_imputer p = None -> ap_scaler p = None -> F = ∅).
Proof.
  intros [_ HI HS _ _].
  assert (HSF : forall s, ap_scaler p = Some s -> (forall c, c ∈ scale_names s <-> float_used opt t c) /\ spec_cols s = scale_names s).
  { intros s E. rewrite E in HS. destruct HS as [_ HS].
    assert (D : dom (sc_shift s) = dom (sc_scale s)) by (apply set_eq; intros c; by rewrite (proj1 (HS c)), (proj1 (proj2 (HS c)))).
    unfold scale_names, spec_cols. rewrite D. split.
    - intros c. rewrite elem_of_union, (proj1 (proj2 (HS c))). tauto.
    - destruct (decide (sc_shift s = ∅)); [set_solver|]. rewrite D. set_solver. }
  destruct (ap_imputer p) as [f|] eqn:EI.
  - destruct HI as [_ HI]. exists (dom f). split; [|split; [intros c _; apply HI|done]]. split; [intros g Hg; rewrite EI in Hg; by injection Hg as <-|]. intros s ES.
    destruct (HSF s ES) as [H1 H2]. rewrite H2. assert (scale_names s = dom f) as ->; [|done].
    apply set_eq. intros c. by rewrite H1, (proj1 (HI c)).
  - destruct (ap_scaler p) as [s|] eqn:ES.
    + destruct (HSF s eq_refl) as [H1 H2]. exists (scale_names s). split; [|split; [intros c _; apply H1|done]]. split; [intros g Hg; congruence|]. intros s' Hs'. rewrite ES in Hs'. by injection Hs' as <-.
    + exists ∅. split; [split; intros ? Hx; congruence|]. split; [|done]. intros c [[? ?]|[? ?]]; done.
Qed.

Definition no_error (opt : oh_opt) : Prop := oh_missing opt <> PError /\ oh_unknown opt <> PError.
Lemma created_names t1 e c n : fitted auto_oh t1 e -> c ∈ en_cats e -> created e c n -> n = missing_name c \/ exists i, n = onehot_name c i.
Proof.
  intros HF Hc Hcr. destruct (ft_col _ _ _ HF c Hc) as (toNew & fb0 & fb1 & Em & Ef & [A1 A2 A3 A4 A5]).
  assert (H0 : fb0 = missing_name c \/ exists i, fb0 = onehot_name c i).
  { unfold fallback0_ok in A4. simpl in A4. destruct (decide _); [by left|]. destruct A4 as (z & _ & Hz). apply A2 in Hz as (i & -> & _). right. by exists i. }
  assert (H1 : fb1 = fb0) by (unfold fallback1_ok in A5; simpl in A5; by destruct A5).
  destruct Hcr as [(m & z & Em' & Hz)|(_ & g0 & g1 & Ef' & Hn)].
  - rewrite Em in Em'. injection Em' as <-. apply A2 in Hz as (i & -> & _). right. by exists i.
  - rewrite Ef in Ef'. injection Ef' as <- <-. destruct Hn as [-> | ->]; [done|by rewrite H1].
Qed.
Lemma new_names t1 e : fitted auto_oh t1 e -> en_cats e <> [] -> en_new e <> [].
Proof.
  intros HF Hc E. destruct (en_cats e) as [|c cats] eqn:EC; [done|]. assert (Hcc : c ∈ en_cats e) by (rewrite EC; by left).
  destruct (ft_col _ _ _ HF c Hcc) as (toNew & fb0 & fb1 & Em & Ef & [A1 A2 A3 A4 A5]).
  assert (fb0 <> "") as Hne.
  { unfold fallback1_ok in A5. simpl in A5. by destruct A5 as [<- ?]. }
  assert (Hin : fb0 ∈ en_new e). { apply (ft_new _ _ _ HF). exists c. split; [done|]. right. split; [done|]. exists fb0, fb1. auto. }
  rewrite E in Hin. by apply elem_of_nil in Hin.
Qed.
Lemma auto_drop_safe t t1 e X : fitted auto_oh t1 e -> (exists c, categorical t c) ->
  (forall c, is_Some (t_cols t1 !! (KInt, c)) <-> categorical t c) -> no_clash t ->
  (forall c, c ∈ en_cats e -> c ∉ t_strs X) -> drop_safe e X.
Proof.
  intros HF [c0 Hc0] HC HN HX. right. assert (HE : forall c, c ∈ en_cats e <-> categorical t c) by (intros c; by rewrite (ft_cats _ _ _ HF), HC).
  split; [|split; [|done]].
  - eapply new_names; [done|]. intros E. apply HE in Hc0. rewrite E in Hc0. by apply elem_of_nil in Hc0.
  - intros c Hc (c' & Hc' & Hcr)%(ft_new _ _ _ HF). apply HE in Hc. pose proof (proj1 (HE c') Hc') as Hc2.
    destruct (created_names t1 e c' c HF Hc' Hcr) as [->|[i ->]]; [by apply (proj2 (HN c' _ 0 Hc2 Hc))|by apply (proj1 (HN c' _ i Hc2 Hc))].
Qed.
Lemma auto_not_refused t0 e X : ~ refused_in auto_oh t0 e X.
Proof. intros (c & z & _ & _ & H). unfold refused in H. simpl in H. naive_solver. Qed.

Section transform.
Context {rt : GoRT}.
Context (order : gset string -> list string) (Ho : forall X, order X ≡ₚ elements X).

(** One-hot encoding with the encoder of a preprocessor. *)
Lemma onehot_step opt t0 p e h v : auto_fitted opt t0 p -> no_clash t0 -> ap_onehot p = Some e -> wf h v ->
  (forall c, c ∈ en_cats e -> is_Some (t_cols (abs h v) !! (KInt, c)) /\ c ∉ t_strs (abs h v)) ->
  exists w h', oh_transform e v h = Ok (Some w, h') /\ wf h' w /\ encoded e (abs h v) (abs h' w) /\ preserved h h' /\ d_ind w = d_ind v.
Proof.
  intros HA HN EO W HC. pose proof (af_onehot _ _ _ HA) as H. rewrite EO in H. destruct H as (Hex & t1 & HF & H).
  pose proof (C55_transform_main auto_oh t1 e h v auto_oh_fixed HF W) as HT.
  pose proof (oh_transform_ind e v h) as Hind. destruct (oh_transform e v h) as [[[w|] h']|].
  - destruct HT as (A1 & A2 & A3 & _); [eapply auto_drop_safe; [done|done|by intros c; apply H|done|by intros c ?; apply HC]|].
    exists w, h'. split; [done|]. do 3 (split; [done|]). by eapply Hind.
  - exfalso. destruct HT as [_ HT]; [eapply auto_drop_safe; [done|done|by intros c; apply H|done|by intros c ?; apply HC]|].
    by apply auto_not_refused in HT.
  - exfalso. destruct HT as (c & Hc & Hn); [eapply auto_drop_safe; [done|done|by intros c; apply H|done|by intros c ?; apply HC]|].
    destruct (HC c Hc) as [[x Hx] _]. by rewrite Hn in Hx.
Qed.

Lemma fitted_cats opt t p e c : auto_fitted opt t p -> ap_onehot p = Some e -> c ∈ en_cats e <-> categorical t c.
Proof.
  intros HA EO. pose proof (af_onehot _ _ _ HA) as H. rewrite EO in H. destruct H as (_ & t1 & HF & H). by rewrite (ft_cats _ _ _ HF), (proj1 (H c)).
Qed.

Lemma transform_spec opt t0 p h d : auto_fitted opt t0 p -> no_clash t0 -> wf h d -> unique_names (abs h d) ->
  (forall c, c ∈ t_strs (abs h d) -> is_Some (t_cols (abs h d) !! (KObj, c))) -> has_inputs p (abs h d) ->
  exists v h', auto_transform order p d h = Ok (Some v, h') /\ wf h' v /\ preserved h h' /\
    d_ind v = d_ind d /\ prepared_as (reps d) p (abs h d) (abs h' v).
Proof.
  intros HA HN W HU HO (I1 & I2 & I3 & I4 & I5). destruct (fitted_floats opt t0 p HA) as (F & HF & _ & HF0).
  destruct (auto_floats_spec order Ho p F h d W HF) as (v1 & h1 & E1 & X1 & W1 & Ei1 & A1).
  { intros c Hc. destruct HF as [HF1 HF2]. destruct (ap_imputer p) as [f|] eqn:EI; [|destruct (ap_scaler p) as [s|] eqn:ES].
    - rewrite <- (HF1 f eq_refl) in Hc. by eapply I1.
    - rewrite <- (proj2 (HF2 s eq_refl)) in Hc. by eapply I2.
    - rewrite HF0 in Hc by done. set_solver. }
  unfold auto_transform. rewrite (bind_eq _ _ _ _ _ E1).
  set (T := prep_floats (reps d) p (abs h d)) in *.
  assert (H2 : exists v2 h2, (match ap_hash p with Some cols => hash_encoder_transform cols v1 | None => ret v1 end) h1 = Ok (v2, h2) /\
    ext h1 h2 /\ wf h2 v2 /\ d_ind v2 = d_ind v1 /\ abs h2 v2 = prep_strings p T).
  { unfold prep_strings. destruct (ap_hash p) as [cols|] eqn:EH; [|exists v1, h1; split; [done|]; split; [apply ext_refl|done]].
    destruct (hash_strings_view_spec h1 v1 cols W1) as (v2 & h2 & E2 & W2 & X2 & A2).
    - pose proof (af_hash _ _ _ HA) as H. rewrite EH in H. destruct H as [Hne HP]. intros ->.
      symmetry in HP. apply Permutation_nil_r in HP. apply elements_empty_inv in HP. by apply Hne, leibniz_equiv.
    - intros c Hc. rewrite A1. apply prep_floats_dom. by eapply I3.
    - destruct (I4 cols eq_refl) as (k & Hk & Hk2). exists k. split; [|done]. rewrite A1. by apply prep_floats_dom.
    - exists v2, h2. split; [done|]. split; [done|]. split; [done|]. split; [by eapply hash_strings_view_ind|]. by rewrite A2, A1. }
  destruct H2 as (v2 & h2 & E2 & X2 & W2 & Ei2 & A2). rewrite (bind_eq _ _ _ _ _ E2). unfold prepared_as. fold T.
  assert (P2 : preserved h h2) by (eapply preserved_trans; by apply ext_preserved).
  destruct (ap_onehot p) as [e|] eqn:EO.
  - destruct (onehot_step opt t0 p e h2 v2 HA HN EO W2) as (w & h3 & E3 & W3 & A3 & P3 & Ei3).
    + intros c Hc. rewrite A2. pose proof (proj1 (fitted_cats opt t0 p e c HA EO) Hc) as Hcat.
      pose proof (af_hash _ _ _ HA) as H. unfold prep_strings. destruct (ap_hash p) as [cols|] eqn:EH.
      * destruct H as [Hne HP]. unfold categorical in Hcat. rewrite decide_False in Hcat by done.
        assert (Hcols : c ∈ cols) by (by rewrite HP, elem_of_elements). split.
        -- rewrite C24_hashed_columns_main by (intros c' Hc'; apply prep_floats_dom; by eapply I3). rewrite decide_True by done.
           destruct (proj2 (prep_floats_dom (reps d) p (abs h d) (KObj, c)) (I3 cols c eq_refl Hcols)) as [x Hx]. fold T in Hx. rewrite Hx. by eexists.
        -- unfold t_hash. cbn [t_strs]. rewrite elem_of_filter. naive_solver.
      * specialize (I5 e c eq_refl eq_refl Hc). split; [by apply prep_floats_dom|]. intros Hs.
        rewrite (proj2 (prep_floats_rest (reps d) p (abs h d)) : t_strs T = _) in Hs. specialize (HU KInt KObj c I5 (HO c Hs)). done.
    + exists w, h3. split; [done|]. split; [done|]. split; [by eapply preserved_trans|]. split; [congruence|]. by rewrite <- A2.
  - exists v2, h2. split; [done|]. split; [done|]. split; [done|]. split; [congruence|]. done.
Qed.
End transform.
