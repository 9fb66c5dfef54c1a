(** AutoPreprocessor: imputing and scaling detached columns. *)
From Verif Require Import P_PrepMain.
From Verif Require Export P_Auto2.

Section prep.
Context {rt : GoRT}.

Lemma names_key h d k : is_Some (t_cols (abs h d) !! k) -> k.2 ∈ names (mp h (r_maps (d_raw d))).
Proof.
  rewrite abs_cols_lookup. destruct (mp h (r_maps (d_raw d)) !! k) as [s|] eqn:E; [|by intros []]. intros _.
  apply elem_of_names. destruct k as [k c]. by exists k, s.
Qed.

(** The state between detaching and the end of the float transformations. *)
Definition in_prep (h : heap) (d : dframe) (F : gset string) (T : table) (hv : heap) (v : dframe) : Prop :=
  detached h hv v F /\ d_ind v = d_ind d /\ abs hv v = T.
Lemma reps_ind (v d : dframe) : d_ind v = d_ind d -> reps v = reps d.
Proof. intros E. unfold reps, inds. by rewrite E. Qed.

Lemma detach_prep h d cols F : wf h d -> (cols = [] \/ list_to_set cols = F) ->
  (forall c, c ∈ F -> is_Some (t_cols (abs h d) !! (KFloat, c))) ->
  exists v hv, detached_view d cols h = Ok (v, hv) /\ in_prep h d F (abs h d) hv v.
Proof.
  intros W Hcols HF. destruct (detached_view_own h d cols W) as (v & h' & E & X & Wv & Ea & _ & Ei & Ho & Hy).
  assert (Hsub : forall c, c ∈ F -> c ∈ unshare_set (d_raw d) (mp h (r_maps (d_raw d))) cols).
  { intros c Hc. unfold unshare_set. destruct (decide _) as [|Hn]; [exact (names_key h d (KFloat, c) (HF c Hc))|].
    destruct Hcols as [->|Hcols]; [exfalso; auto|]. by rewrite Hcols. }
  exists v, h'. split; [done|]. split; [|done]. split; [done|]. split; [done|]. split.
  - intros c k j1 j2 a Hc. apply Ho. by apply Hsub.
  - intros c Hc. apply Hy. by apply Hsub.
Qed.

Lemma impute_prep order (Ho : forall X, order X ≡ₚ elements X) f h d T hv v F : in_prep h d F T hv v -> dom f = F ->
  (forall c, c ∈ F -> is_Some (t_cols T !! (KFloat, c))) ->
  exists h', imputer_transform order f v hv = Ok (tt, h') /\ in_prep h d F (t_update F (impute_with f) T) h' v.
Proof.
  intros (D & Ei & ET) EF HF. unfold imputer_transform. destruct (order_nodup order (dom f) (Ho _)) as (Hnd & Hs & Hin).
  pose proof (update_detached h hv v F (fun c => impute_value (default f64_zero (f !! c))) (order (dom f)) D Hnd) as H.
  destruct (forM _ _ hv) as [[[] h']|].
  - destruct H as (D' & Ea & _); [intros c; by rewrite Hin, EF|]. exists h'. split; [done|]. split; [done|]. split; [done|].
    rewrite Ea, Hs, ET, EF. rewrite (t_update_n_ext _ _ _ (impute_with f)) by (intros c x; apply impute_value_spec).
    assert (Hok : t_ok T) by (rewrite <- ET; apply abs_ok; apply D).
    apply t_update_n_idem; [done|apply impute_idem|]. intros j Hj. apply reps_pos. rewrite <- ET in Hj. destruct D as (_ & (n & Wn) & _). by rewrite (wfn_inds_length _ _ _ Wn).
  - exfalso. destruct H as (c & Hc & Hn); [intros c; by rewrite Hin, EF|]. rewrite Hin, EF in Hc. rewrite ET in Hn. apply HF in Hc. rewrite Hn in Hc. by destruct Hc.
Qed.
Lemma scale_prep order (Ho : forall X, order X ≡ₚ elements X) s h d T hv v F : in_prep h d F T hv v -> spec_cols s = F ->
  (forall c, c ∈ F -> is_Some (t_cols T !! (KFloat, c))) ->
  exists h', scaler_transform order s v hv = Ok (tt, h') /\ in_prep h d F (t_update_n (reps d) F (scale_with s) T) h' v.
Proof.
  intros (D & Ei & ET) EF HF. rewrite scaler_transform_eq by done. destruct (order_nodup order (spec_cols s) (Ho _)) as (Hnd & Hs & Hin).
  pose proof (update_detached h hv v F (scale_value s) (order (spec_cols s)) D Hnd) as H.
  destruct (forM _ _ hv) as [[[] h']|].
  - destruct H as (D' & Ea & _); [intros c; by rewrite Hin, EF|]. exists h'. split; [done|]. split; [done|]. split; [done|].
    rewrite Ea, Hs, ET, EF, (reps_ind _ _ Ei). by apply t_update_n_ext.
  - exfalso. destruct H as (c & Hc & Hn); [intros c; by rewrite Hin, EF|]. rewrite Hin, EF in Hc. rewrite ET in Hn. apply HF in Hc. rewrite Hn in Hc. by destruct Hc.
Qed.
Lemma t_update_dom F g t k : is_Some (t_cols (t_update F g t) !! k) <-> is_Some (t_cols t !! k).
Proof. unfold t_update. simpl. rewrite map_lookup_imap. destruct (t_cols t !! k); simpl; [|done]. split; by eexists. Qed.

(** Preprocessors whose float parts deal with the columns [F]. *)
Definition floats_of (p : auto) (F : gset string) : Prop :=
  (forall f, ap_imputer p = Some f -> dom f = F) /\ (forall s, ap_scaler p = Some s -> spec_cols s = F /\ scale_names s = F).

Lemma prep_run order (Ho : forall X, order X ≡ₚ elements X) p F h d hv v : floats_of p F ->
  in_prep h d F (abs h d) hv v -> (forall c, c ∈ F -> is_Some (t_cols (abs h d) !! (KFloat, c))) ->
  exists h', ((match ap_imputer p with Some f => imputer_transform order f v | None => ret tt end) ;;*
    (match ap_scaler p with Some s => scaler_transform order s v | None => ret tt end)) hv = Ok (tt, h') /\
    in_prep h d F (prep_floats (reps d) p (abs h d)) h' v.
Proof.
  intros [HI HS] P HF. unfold prep_floats.
  assert (H1 : exists h1, (match ap_imputer p with Some f => imputer_transform order f v | None => ret tt end) hv = Ok (tt, h1) /\
    in_prep h d F (match ap_imputer p with Some f => t_update (dom f) (impute_with f) (abs h d) | None => abs h d end) h1 v).
  { destruct (ap_imputer p) as [f|]; [|by exists hv]. specialize (HI f eq_refl).
    destruct (impute_prep order Ho f h d (abs h d) hv v F P HI HF) as (h1 & E1 & P1). exists h1. split; [done|]. by rewrite HI. }
  destruct H1 as (h1 & E1 & P1).
  set (T := match ap_imputer p with Some f => t_update (dom f) (impute_with f) (abs h d) | None => abs h d end) in *.
  assert (HF1 : forall c, c ∈ F -> is_Some (t_cols T !! (KFloat, c))).
  { intros c Hc. subst T. destruct (ap_imputer p); [apply t_update_dom|]; by apply HF. }
  unfold bind at 1. rewrite E1. destruct (ap_scaler p) as [s|].
  - destruct (HS s eq_refl) as [S1 S2]. rewrite S2. by apply (scale_prep order Ho s h d T h1 v F).
  - by exists h1.
Qed.

Lemma auto_floats_spec order (Ho : forall X, order X ≡ₚ elements X) p F h d : wf h d -> floats_of p F ->
  (forall c, c ∈ F -> is_Some (t_cols (abs h d) !! (KFloat, c))) ->
  exists v h', auto_transform_floats order p d h = Ok (v, h') /\ ext h h' /\ wf h' v /\ d_ind v = d_ind d /\
    abs h' v = prep_floats (reps d) p (abs h d).
Proof.
  intros W HP HF. unfold auto_transform_floats.
  assert (Hlist : list_to_set (order F) = F) by apply (order_nodup order F (Ho _)).
  destruct (ap_imputer p) as [f|] eqn:EI; [|destruct (ap_scaler p) as [s|] eqn:ES].
  - destruct (detach_prep h d (order (dom f)) F W) as (v & hv & E & P); [right; by rewrite (proj1 HP f EI)|done|].
    destruct (prep_run order Ho p F h d hv v HP P HF) as (h' & E' & (D & Ei & Ea)). rewrite EI in E'.
    rewrite (bind_eq _ _ _ _ _ E). exists v, h'. split; [|by destruct D as (? & ? & _)].
    unfold bind in E' |- *. destruct (imputer_transform order f v hv) as [[[] h1]|]; [|done].
    destruct (match ap_scaler p with Some s => scaler_transform order s v | None => ret tt end h1) as [[[] h2]|]; [|done]. by injection E' as ->.
  - destruct (detach_prep h d (order (scaled_columns s)) F W) as (v & hv & E & P);
      [right; by rewrite scaled_columns_spec, (proj1 (proj2 HP s ES))|done|].
    destruct (prep_run order Ho p F h d hv v HP P HF) as (h' & E' & (D & Ei & Ea)). rewrite EI, ES in E'.
    rewrite (bind_eq _ _ _ _ _ E). exists v, h'. split; [|by destruct D as (? & ? & _)].
    unfold bind, ret in E' |- *. destruct (scaler_transform order s v hv) as [[[] h1]|]; [|done]. by injection E' as ->.
  - exists d, h. split; [done|]. split; [apply ext_refl|]. split; [done|]. split; [done|]. unfold prep_floats. by rewrite EI, ES.
Qed.
End prep.
