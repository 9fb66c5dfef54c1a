(** C107: preprocessing dataframes with extra columns. *)
From Verif Require Export P_AutoMain P_PrepMain P_OneHotMain P_ViewMain.
From Verif Require Import P_Hash P_View2.
From stdpp Require Import strings list.
From Verif Require Import Spec_Extra P_Base P_Check.

(** ** In place *)
Lemma loop_map f s l : forall h u h', forM l (fun i => let* v := sl_rd s i in sl_wr s i (VFloat (f (float_of v)))) h = Ok (u, h') -> h_map h' = h_map h.
Proof.
  induction l as [|i l IH]; intros h u h'; [by intros [= _ <-]|]. cbn [forM].
  intros (x & h1 & H1 & H2)%bind_ok. rewrite (IH _ _ _ H2). apply bind_ok in H1 as (v & h2 & H3 & H4).
  unfold sl_rd in H3. destruct (sl_vals h s !! i); [|done]. injection H3 as <- <-. unfold sl_wr in H4. case_decide; [|done].
  by injection H4 as _ <-.
Qed.
Lemma update_columns_same (g : string -> f64 -> f64) d v l : inds v = inds d -> forall h,
  (forall c, c ∈ l -> mp h (r_maps (d_raw v)) !! (KFloat, c) = mp h (r_maps (d_raw d)) !! (KFloat, c)) ->
  forM l (fun c => update_column (g c) v c) h = forM l (fun c => update_column (g c) d c) h.
Proof.
  intros Hi. induction l as [|c l IH]; intros h Hc; [done|]. cbn [forM].
  assert (E : update_column (g c) v c h = update_column (g c) d c h).
  { unfold update_column, access, get_mp, bind. rewrite Hc by (apply elem_of_cons; by left). by rewrite Hi. }
  unfold bind. rewrite E. destruct (update_column (g c) d c h) as [[u h1]|] eqn:E1; [|done]. apply IH.
  intros c' Hc'. assert (Em : h_map h1 = h_map h).
  { unfold update_column in E1. apply bind_ok in E1 as (s & h2 & E2 & E3). apply loop_map in E3. rewrite E3.
    unfold access in E2. apply bind_ok in E2 as (m & h3 & [= <- <-] & E2). destruct (_ !! _) in E2; [|done]. by injection E2 as _ <-. }
  unfold mp. rewrite Em. apply Hc. apply elem_of_cons. by right.
Qed.
Lemma column_view_same (rt : GoRT) h d cols v h1 : wf h d -> column_view d cols h = Ok (v, h1) ->
  inds v = inds d /\ forall k c, c ∈ cols -> mp h1 (r_maps (d_raw v)) !! (k, c) = mp h1 (r_maps (d_raw d)) !! (k, c).
Proof.
  intros W E. split; [unfold inds; by rewrite (column_view_ind _ _ _ _ _ E)|]. intros k c Hc.
  assert (Hn : cols <> []) by (intros ->; by apply elem_of_nil in Hc).
  destruct (column_view_spec h d cols W Hn) as (v' & h' & E' & _ & _ & X & _ & _ & _ & M1 & _). rewrite E in E'. injection E' as <- <-.
  rewrite M1. rewrite (ext_mp _ _ _ X) by (destruct W as [n W]; apply W).
  destruct (mp h (r_maps (d_raw d)) !! (k, c)) as [s|] eqn:Es.
  - by apply map_filter_lookup_Some.
  - apply map_filter_lookup_None. by left.
Qed.
Lemma C107_imputer_main : forall (rt : GoRT) order (fb : gmap string f64) h d cols v h1,
  wf h d -> (forall X, order X ≡ₚ elements X) ->
  column_view d cols h = Ok (v, h1) -> (forall c, c ∈ dom fb -> c ∈ cols) ->
  imputer_transform order fb v h1 = imputer_transform order fb d h1.
Proof.
  intros rt order fb h d cols v h1 W Ho E Hc. destruct (column_view_same rt _ _ _ _ _ W E) as [Hi Hm].
  apply update_columns_same; [done|]. intros c. rewrite Ho, elem_of_elements. intros H. by apply Hm, Hc.
Qed.
Lemma C107_scaler_main : forall (rt : GoRT) order (sc : scaler f64_arith) h d cols v h1,
  wf h d -> (forall X, order X ≡ₚ elements X) ->
  column_view d cols h = Ok (v, h1) -> (forall c, c ∈ spec_cols sc -> c ∈ cols) ->
  scaler_transform order sc v h1 = scaler_transform order sc d h1.
Proof.
  intros rt order sc h d cols v h1 W Ho E Hc. destruct (column_view_same rt _ _ _ _ _ W E) as [Hi Hm].
  unfold scaler_transform. destruct (decide _); [done|].
  apply update_columns_same; [done|]. intros c. rewrite Ho, elem_of_elements, scaled_columns_spec. intros H. by apply Hm, Hc.
Qed.
(** What a column view shows agrees with the dataframe on the columns of the view. *)
Lemma C107_column_view_main : forall (rt : GoRT) h d cols v h1, wf h d -> column_view d cols h = Ok (v, h1) ->
  wf h1 v /\ wf h1 d /\ inds v = inds d /\ agree (list_to_set cols) (abs h1 v) (abs h1 d).
Proof.
  intros rt h d cols v h1 W E. destruct (C05_column_view_projects_main rt h d cols W) as (v' & h' & E' & A & W1 & P & _).
  rewrite E in E'. injection E' as <- <-. destruct (P d W) as [W2 A2]. split; [done|]. split; [done|].
  destruct (column_view_same rt _ _ _ _ _ W E) as [Hi Hm]. split; [done|]. split.
  - rewrite A, A2. by destruct (decide _).
  - intros [k c]. rewrite elem_of_list_to_set. simpl. intros Hc.
    change (t_cols (abs h1 v) !! (k, c) = t_cols (abs h1 d) !! (k, c)).
    rewrite !abs_cols_lookup, (Hm k c Hc), Hi. done.
Qed.

(** ** Strings *)
Lemma hash_agree cols S t1 t2 : agree S t1 t2 -> (forall c, c ∈ cols -> c ∈ S) ->
  (forall c, c ∈ cols -> is_Some (t_cols t1 !! (KObj, c))) -> agree S (t_hash cols t1) (t_hash cols t2).
Proof.
  intros [Hr Hc] HS HP. split; [done|]. intros [k c] Hk. simpl in Hk.
  rewrite !C24_hashed_columns_main; [|intros c' Hc'; rewrite <- (Hc (KObj, c')) by (by apply HS); by apply HP|done].
  rewrite (Hc (KObj, c)), (Hc (k, c)) by done. done.
Qed.
Lemma C107_hash_main : forall (rt : GoRT) cols (S : gset string) h1 d1 h2 d2, wf h1 d1 -> wf h2 d2 -> cols <> [] ->
  (forall c, c ∈ cols -> c ∈ S /\ is_Some (t_cols (abs h1 d1) !! (KObj, c))) ->
  (exists k, is_Some (t_cols (abs h1 d1) !! k) /\ k.2 ∉ cols) -> (exists k, is_Some (t_cols (abs h2 d2) !! k) /\ k.2 ∉ cols) ->
  agree S (abs h1 d1) (abs h2 d2) ->
  exists v1 h1' v2 h2', hash_encoder_transform cols d1 h1 = Ok (v1, h1') /\ hash_encoder_transform cols d2 h2 = Ok (v2, h2') /\
    agree S (abs h1' v1) (abs h2' v2).
Proof.
  intros rt cols S h1 d1 h2 d2 W1 W2 Hn Hc O1 O2 HA.
  destruct (C24_hash_view_partial_main rt h1 d1 cols W1 Hn) as (v1 & h1' & E1 & _ & _ & A1); [intros c H; by apply Hc|done|].
  destruct (C24_hash_view_partial_main rt h2 d2 cols W2 Hn) as (v2 & h2' & E2 & _ & _ & A2); [|done|].
  { intros c H. rewrite <- (proj2 HA (KObj, c)); by apply Hc. }
  exists v1, h1', v2, h2'. split; [done|]. split; [done|]. rewrite A1, A2. apply hash_agree; [done| |]; intros c H; by apply Hc.
Qed.

(** ** Categories *)
Lemma ints_agree S t1 t2 c : agree S t1 t2 -> c ∈ S -> t_ints t1 c = t_ints t2 c.
Proof. intros [_ H] Hc. unfold t_ints. by rewrite (H (KInt, c)). Qed.
Lemma encoded_agree opt t0 e (S : gset string) t1 t2 t1' t2' : fitted opt t0 e -> encoded e t1 t1' -> encoded e t2 t2' -> agree S t1 t2 ->
  (forall c, c ∈ en_cats e -> c ∈ S /\ exists col, t_cols t1 !! (KInt, c) = Some col /\ length col = t_rows t1) ->
  t_rows t1' = t_rows t2' /\
  forall k, k.2 ∈ S \/ k.1 = KBool /\ k.2 ∈ en_new e -> t_cols t1' !! k = t_cols t2' !! k.
Proof.
  intros HF E1 E2 HA HC. split; [rewrite (ec_rows _ _ _ E1), (ec_rows _ _ _ E2); apply HA|]. intros [k n] Hk. simpl in Hk.
  destruct (decide (k = KBool /\ n ∈ en_new e)) as [[-> Hn]|Hno].
  - destruct (proj1 (ft_new _ _ _ HF n) Hn) as (c & Hc & Hcr). destruct (HC c Hc) as (HcS & icol & Hi & Hl).
    destruct (ec_new _ _ _ E1 n Hn) as (c1 & C1 & L1). destruct (ec_new _ _ _ E2 n Hn) as (c2 & C2 & L2). rewrite C1, C2. f_equal.
    apply list_eq. intros j. destruct (decide (j < t_rows t1)) as [Hj|Hj].
    + destruct (lookup_lt_is_Some_2 icol j) as [v Hv]; [lia|].
      assert (Hz : t_ints t1 c !! j = Some (the_int v)) by (unfold t_ints; rewrite Hi; simpl; by rewrite list_lookup_fmap, Hv).
      destruct (ec_flags _ _ _ E1 c n j _ Hc Hcr Hz) as (q1 & b1 & Q1 & B1 & F1).
      rewrite (ints_agree S t1 t2 c HA HcS) in Hz.
      destruct (ec_flags _ _ _ E2 c n j _ Hc Hcr Hz) as (q2 & b2 & Q2 & B2 & F2).
      rewrite C1 in Q1. injection Q1 as <-. rewrite C2 in Q2. injection Q2 as <-. rewrite B1, B2. do 2 f_equal.
      destruct b1, b2; try done; [symmetry; apply F2, F1; done|apply F1, F2; done].
    + rewrite !lookup_ge_None_2; [done|rewrite L2, <- (proj1 HA); lia|lia].
  - assert (HS : n ∈ S) by (destruct Hk; [done|tauto]).
    rewrite (ec_others _ _ _ E1), (ec_others _ _ _ E2); [|simpl; destruct (decide (k = KBool)); [right; tauto|by left]..].
    simpl. destruct (decide _); [done|]. by apply HA.
Qed.
Lemma C107_onehot_main : forall (rt : GoRT) opt t0 e (S : gset string) h1 d1 h2 d2, fixed opt -> fitted opt t0 e -> wf h1 d1 -> wf h2 d2 ->
  drop_safe e (abs h1 d1) -> drop_safe e (abs h2 d2) ->
  (forall c, c ∈ en_cats e -> c ∈ S /\ is_Some (t_cols (abs h1 d1) !! (KInt, c))) ->
  agree S (abs h1 d1) (abs h2 d2) ->
  match oh_transform e d1 h1, oh_transform e d2 h2 with
  | Ok (Some v1, h1'), Ok (Some v2, h2') => t_rows (abs h1' v1) = t_rows (abs h2' v2) /\
      forall k, k.2 ∈ S \/ k.1 = KBool /\ k.2 ∈ en_new e -> t_cols (abs h1' v1) !! k = t_cols (abs h2' v2) !! k
  | Ok (None, _), Ok (None, _) => True
  | _, _ => False
  end.
Proof.
  intros rt opt t0 e S h1 d1 h2 d2 HX HF W1 W2 D1 D2 HC HA.
  pose proof (C55_transform_main opt t0 e h1 d1 HX HF W1 D1) as H1.
  pose proof (C55_transform_main opt t0 e h2 d2 HX HF W2 D2) as H2.
  assert (HR : refused_in opt t0 e (abs h1 d1) <-> refused_in opt t0 e (abs h2 d2)).
  { unfold refused_in. split; intros (c & z & Hc & Hz & Hr); exists c, z; (split; [done|]); (split; [|done]).
    - rewrite <- (ints_agree S (abs h1 d1)); [done|done|by apply HC].
    - rewrite (ints_agree S _ (abs h2 d2)); [done|done|by apply HC]. }
  assert (P2 : forall c, c ∈ en_cats e -> t_cols (abs h2 d2) !! (KInt, c) <> None).
  { intros c Hc. rewrite <- (proj2 HA (KInt, c)) by (by apply HC). destruct (HC c Hc) as [_ [col Hcol]]. by rewrite Hcol. }
  assert (P1 : forall c, c ∈ en_cats e -> t_cols (abs h1 d1) !! (KInt, c) <> None).
  { intros c Hc. destruct (HC c Hc) as [_ [col Hcol]]. by rewrite Hcol. }
  destruct (oh_transform e d1 h1) as [[[v1|] h1']|]; destruct (oh_transform e d2 h2) as [[[v2|] h2']|]; try done.
  - destruct H1 as (_ & E1 & _). destruct H2 as (_ & E2 & _).
    eapply (encoded_agree opt t0 e S); try done. intros c Hc. destruct (HC c Hc) as [Hs [col Hcol]]. split; [done|]. exists col.
    split; [done|]. by apply (abs_ok _ _ W1 _ _ Hcol).
  - destruct H1 as (_ & _ & _ & H1). destruct H2 as (_ & H2). tauto.
  - destruct H2 as (c & Hc & Hm). by apply (P2 c).
  - destruct H2 as (_ & _ & _ & H2). destruct H1 as (_ & H1). tauto.
  - destruct H2 as (c & Hc & Hm). by apply (P2 c).
  - destruct H1 as (c & Hc & Hm). by apply (P1 c).
  - destruct H1 as (c & Hc & Hm). by apply (P1 c).
  - destruct H1 as (c & Hc & Hm). by apply (P1 c).
Qed.

(** ** AutoPreprocessor *)
Lemma update_agree n F g S t1 t2 : agree S t1 t2 -> agree S (t_update_n n F g t1) (t_update_n n F g t2).
Proof.
  intros [Hr Hc]. split; [done|]. intros k Hk. unfold t_update_n. simpl. by rewrite !map_lookup_imap, (Hc k Hk).
Qed.
Lemma prep_floats_agree n p S t1 t2 : agree S t1 t2 -> agree S (prep_floats n p t1) (prep_floats n p t2).
Proof.
  intros H. unfold prep_floats. destruct (ap_scaler p); [apply update_agree|]; (destruct (ap_imputer p); [rewrite !t_update_1; by apply update_agree|done]).
Qed.
Lemma prepared_agree opt t0 p n (S : gset string) t1 t2 t1' t2' : auto_fitted opt t0 p -> t_ok t1 -> has_inputs p t1 ->
  prepared_as n p t1 t1' -> prepared_as n p t2 t2' -> agree S t1 t2 -> (forall c, categorical t0 c -> c ∈ S) ->
  t_rows t1' = t_rows t2' /\
  forall k, k.2 ∈ S \/ k.1 = KBool /\ (exists e, ap_onehot p = Some e /\ k.2 ∈ en_new e) -> t_cols t1' !! k = t_cols t2' !! k.
Proof.
  intros HA HO HI P1 P2 HG HC.
  assert (HH : forall cols, ap_hash p = Some cols -> forall c, c ∈ cols <-> categorical t0 c).
  { intros cols E c. pose proof (af_hash _ _ _ HA) as B. rewrite E in B. destruct B as [B1 B2]. unfold categorical.
    rewrite decide_False by done. by rewrite B2, elem_of_elements. }
  assert (G1 : agree S (prep_strings p (prep_floats n p t1)) (prep_strings p (prep_floats n p t2))).
  { unfold prep_strings. destruct (ap_hash p) as [cols|] eqn:EH; [|by apply prep_floats_agree].
    apply hash_agree; [by apply prep_floats_agree|intros c Hc; by apply HC, (HH _ eq_refl)|].
    intros c Hc. apply prep_floats_dom. by eapply (proj1 (proj2 (proj2 HI))). }
  unfold prepared_as in P1, P2. destruct (ap_onehot p) as [e|] eqn:EO.
  - pose proof (af_onehot _ _ _ HA) as B. rewrite EO in B. destruct B as (_ & tt1 & HF & _).
    destruct (encoded_agree _ _ e S _ _ _ _ HF P1 P2 G1) as [R1 R2].
    { intros c Hc. split; [by apply HC, (fitted_cats opt t0 p e c HA EO)|].
      assert (Hrow : t_rows (prep_strings p (prep_floats n p t1)) = t_rows t1).
      { unfold prep_strings. destruct (ap_hash p); [simpl|]; apply prep_floats_rest. }
      rewrite Hrow. unfold prep_strings. destruct (ap_hash p) as [cols|] eqn:EH.
      - assert (HP : forall c, c ∈ cols -> is_Some (t_cols t1 !! (KObj, c))) by (intros ? ?; by eapply (proj1 (proj2 (proj2 HI)))).
        rewrite C24_hashed_columns_main by (intros ? ?; apply prep_floats_dom; by apply HP).
        assert (Hcc : c ∈ cols) by (by apply (HH _ eq_refl), (fitted_cats opt t0 p e c HA EO)).
        rewrite decide_True by done. rewrite prep_floats_other by done. destruct (HP c Hcc) as [col Hcol]. rewrite Hcol. simpl.
        eexists. split; [done|]. rewrite fmap_length. by apply (HO _ _ Hcol).
      - destruct (proj2 (proj2 (proj2 (proj2 HI))) e c EH EO Hc) as [col Hcol].
        rewrite prep_floats_other by done. exists col. split; [done|]. by apply (HO _ _ Hcol). }
    split; [done|]. intros k [Hk|(Hb & e' & [= <-] & Hn)]; apply R2; [by left|by right].
  - subst t1' t2'. split; [apply G1|]. intros k [Hk|(_ & e' & [=] & _)]. by apply G1.
Qed.
Lemma C107_auto_main : forall (rt : GoRT) order (Ho : forall X, order X ≡ₚ elements X) opt t0 p (S : gset string) h1 d1 h2 d2,
  auto_fitted opt t0 p -> no_clash t0 -> wf h1 d1 -> wf h2 d2 -> unique_names (abs h1 d1) -> unique_names (abs h2 d2) ->
  (forall c, c ∈ t_strs (abs h1 d1) -> is_Some (t_cols (abs h1 d1) !! (KObj, c))) ->
  (forall c, c ∈ t_strs (abs h2 d2) -> is_Some (t_cols (abs h2 d2) !! (KObj, c))) ->
  has_inputs p (abs h1 d1) -> has_inputs p (abs h2 d2) -> inds d1 = inds d2 ->
  agree S (abs h1 d1) (abs h2 d2) -> (forall c, categorical t0 c -> c ∈ S) ->
  exists v1 h1' v2 h2', auto_transform order p d1 h1 = Ok (Some v1, h1') /\ auto_transform order p d2 h2 = Ok (Some v2, h2') /\
    t_rows (abs h1' v1) = t_rows (abs h2' v2) /\
    forall k, k.2 ∈ S \/ k.1 = KBool /\ (exists e, ap_onehot p = Some e /\ k.2 ∈ en_new e) ->
      t_cols (abs h1' v1) !! k = t_cols (abs h2' v2) !! k.
Proof.
  intros rt order Ho opt t0 p S h1 d1 h2 d2 HA HN W1 W2 U1 U2 O1 O2 I1 I2 Hi HG HC.
  destruct (C58_transform_main order Ho opt t0 p h1 d1 HA HN W1 U1 O1 I1) as (v1 & h1' & E1 & _ & _ & P1).
  destruct (C58_transform_main order Ho opt t0 p h2 d2 HA HN W2 U2 O2 I2) as (v2 & h2' & E2 & _ & _ & P2).
  exists v1, h1', v2, h2'. split; [done|]. split; [done|].
  assert (Er : reps d2 = reps d1) by (unfold reps; by rewrite Hi). rewrite Er in P2.
  apply (prepared_agree opt t0 p (reps d1) S (abs h1 d1) (abs h2 d2)); try done. by apply abs_ok.
Qed.

(** ** Cases *)
Section wit.
Local Existing Instance ex_rt.
Definition x_narrow : dframe * heap := run_df (column_view ex_d ["b"; "s"]) ex_h.
Definition x_imputer : gmap string f64 := default ∅ (ap_imputer wa_fit.1).
Definition x_wide := run_autotr wa_fit.1 (ex_d, ex_h).
Definition x_thin := run_autotr wa_fit.1 x_narrow.
Lemma C107_check_main : wf ex_h ex_d /\ column_view ex_d ["b"; "s"] ex_h = Ok x_narrow /\
  auto_fitted wa_opt (abs ex_h ex_d) wa_fit.1 /\ (forall c, categorical (abs ex_h ex_d) c -> c ∈ ["b"; "s"]) /\
  has_inputs wa_fit.1 (abs x_narrow.2 x_narrow.1) /\ unique_names (abs x_narrow.2 x_narrow.1) /\
  dom x_imputer = {["b"]} /\
  show KInt "a" x_narrow.2 x_narrow.1 = None /\ show KInt "a" x_wide.2 x_wide.1 = show KInt "a" ex_h ex_d /\
  show KFloat "b" x_wide.2 x_wide.1 = show KFloat "b" x_thin.2 x_thin.1 /\
  show KBool "s_onehot0" x_thin.2 x_thin.1 = Some (VBool <$> [true; false; false; true]).
Proof.
  destruct C58_check_main as (W & _ & _ & _ & _ & HA & _).
  assert (HS : t_strs (abs ex_h ex_d) = {["s"]}) by (apply (bool_decide_unpack _); by vm_compute).
  split; [done|]. split; [by vm_compute|]. split; [done|]. split.
  { intros c. unfold categorical. rewrite HS. rewrite decide_False by apply non_empty_singleton_L. rewrite elem_of_singleton. intros ->. apply elem_of_cons. right. by apply elem_of_list_singleton. }
  split.
  { assert (HB : is_Some (t_cols (abs x_narrow.2 x_narrow.1) !! (KFloat, "b"))) by (apply (bool_decide_unpack _); by vm_compute).
    assert (HO : is_Some (t_cols (abs x_narrow.2 x_narrow.1) !! (KObj, "s"))) by (apply (bool_decide_unpack _); by vm_compute).
    assert (H1 : match ap_imputer wa_fit.1 with Some f => bool_decide (dom f = {["b"]}) | None => true end = true) by (by vm_compute).
    assert (H2 : match ap_scaler wa_fit.1 with Some s => bool_decide (scale_names s = {["b"]}) | None => true end = true) by (by vm_compute).
    assert (H3 : match ap_hash wa_fit.1 with Some s => bool_decide (s = ["s"]) | None => false end = true) by (by vm_compute).
    split_and!.
    - intros f c E. rewrite E in H1. apply bool_decide_eq_true in H1. rewrite H1, elem_of_singleton. by intros ->.
    - intros f c E. rewrite E in H2. apply bool_decide_eq_true in H2. rewrite H2, elem_of_singleton. by intros ->.
    - intros cs c E. rewrite E in H3. apply bool_decide_eq_true in H3. rewrite H3, elem_of_list_singleton. by intros ->.
    - intros cs E. rewrite E in H3. apply bool_decide_eq_true in H3. exists (KFloat, "b"). split; [done|]. rewrite H3. by intros ?%elem_of_list_singleton.
    - intros e c E. rewrite E in H3. discriminate H3. }
  split; [apply unique_check_sound; by vm_compute|]. split; [apply (bool_decide_unpack _); by vm_compute|].
  split; [by vm_compute|]. split; [by vm_compute|]. split; by vm_compute.
Qed.
(** Extra columns that have the name of a new column, or of a column that is replaced. *)
Definition x_extra : dframe * heap := run_df (let* r := new_raw in
  let* r := b_add KInt r "a" [VInt 5; VInt 3] in let* r := b_add KInt r "b" [VInt 7; VInt 7] in
  let* r := b_add KBool r "a_onehot0" [VBool true; VBool true] in
  let* r := b_add KFloat r "b" [VFloat f_half; VFloat f64_zero] in to_dataframe r) heap0.
Definition x_out : dframe * heap := default (dummy, heap0) (run_oh w_enc x_extra).
Lemma C107_names_refuted_main : exists (rt : GoRT) t0 e h d v h' n c, wf h d /\ fitted w_opt t0 e /\ oh_transform e d h = Ok (Some v, h') /\
  t_cols t0 !! (KBool, n) = None /\ t_cols t0 !! (KFloat, c) = None /\
  (exists col, t_cols (abs h d) !! (KBool, n) = Some col /\ t_cols (abs h' v) !! (KBool, n) <> Some col) /\
  is_Some (t_cols (abs h d) !! (KFloat, c)) /\ t_cols (abs h' v) !! (KFloat, c) = None.
Proof.
  exists ex_rt, (abs w_train.2 w_train.1), w_enc, x_extra.2, x_extra.1, x_out.1, x_out.2, "a_onehot0", "b".
  split; [apply (wf_check_sound _ _ 2); by vm_compute|]. split.
  { destruct C55_check_main as (W & _ & E & _). pose proof (C55_fit_main elts elts_perm ord0 ord0_perm w_opt w_train.1 w_train.2 W) as H.
    rewrite E in H. apply H. }
  split; [by vm_compute|]. split; [by vm_compute|]. split; [by vm_compute|]. split.
  { exists [VBool true; VBool true]. split; by vm_compute. }
  split; [apply (bool_decide_unpack _); by vm_compute|by vm_compute].
Qed.
End wit.
