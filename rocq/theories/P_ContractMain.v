(** The contract of preprocessing/interfaces.go:26-39, by cells of arrays. *)
From Verif Require Import P_AutoMain.
From Verif Require Export P_ReadMain P_WriteMain P_OneHotMain.
From Verif Require Import P_Hash P_View2 P_Share P_Detach P_OneHot3 P_OneHot4.
From stdpp Require Import strings list.
From Verif Require Import Spec_Contract P_Base P_Check.

Section frame.
Context {rt : GoRT}.
Lemma hash_view_cells h d cols : wf h d -> cols <> [] ->
  (forall c, c ∈ cols -> is_Some (t_cols (abs h d) !! (KObj, c))) ->
  (exists k, is_Some (t_cols (abs h d) !! k) /\ k.2 ∉ cols) ->
  exists v h', hash_strings_view d cols h = Ok (v, h') /\ ext h h' /\ inds v = inds d /\
    (forall k, k.2 ∉ cols -> mp h' (r_maps (d_raw v)) !! k = mp h (r_maps (d_raw d)) !! k) /\
    (forall k, k.2 ∈ cols -> young_col h h' v k).
Proof.
  intros [n W] Hc Hobj [k0 [Hk0 Hk0n]].
  set (m := mp h (r_maps (d_raw d))).
  assert (Hobj' : forall c, c ∈ cols -> exists s, m !! (KObj, c) = Some s).
  { intros c Hin. specialize (Hobj c Hin). rewrite abs_cols_lookup in Hobj. fold m in Hobj.
    destruct (m !! (KObj, c)); [eauto|by destruct Hobj]. }
  assert (Hm0 : is_Some (m !! k0)).
  { rewrite abs_cols_lookup in Hk0. fold m in Hk0. destruct (m !! k0); [eauto|by destruct Hk0]. }
  assert (Hne : m <> ∅) by (intros E; rewrite E, lookup_empty in Hm0; by destruct Hm0).
  unfold hash_strings_view. rewrite decide_False by done. erewrite bind_eq by done. fold m.
  set (others := elements (names m ∖ list_to_set cols)).
  assert (Hoth : forall k, is_Some (m !! k) -> k.2 ∈ others <-> k.2 ∉ cols).
  { intros k [s Hs]. unfold others. rewrite elem_of_elements, elem_of_difference, elem_of_list_to_set.
    split; [tauto|]. intros H. split; [|done]. apply elem_of_names. destruct k. eauto. }
  assert (Hone : others <> []).
  { intros E. assert (k0.2 ∈ others) as H by (by apply Hoth). rewrite E in H. by apply elem_of_nil in H. }
  destruct (column_view_spec h d others) as
    (v & h1 & E1 & A1 & Wv & X1 & Ea1 & M1 & S1 & F1 & St1 & I1 & V1); [by exists n|done|].
  erewrite bind_eq by done. rewrite (nar_ok h n m (wf_cols _ _ _ W) Hne).
  set (l := r_maps (d_raw v)) in *.
  assert (Hl : l < length (h_map h1)) by (destruct Wv as [? Wv]; apply Wv).
  destruct (fill_spec l (fun c : string => (KInt, c)) (fun _ => ret (replicate n (zero_of KInt)))
              (fun _ => replicate n (zero_of KInt)) cols h1) as
    (h2 & E2 & G2 & K2 & N2 & D2); [done|done|done|].
  assert (E2' : forM cols (fun c => let* s := make_slice KInt n in put_col l (KInt, c) s) h1 = Ok (tt, h2)).
  { rewrite <- E2. apply forM_ext. intros c hh. by rewrite make_slice_lit. }
  erewrite bind_eq by exact E2'.
  assert (X2 : ext h h2).
  { eapply grow_ext; [exact X1|exact G2|]. lia. }
  assert (W2 : wfn h2 d n) by (by eapply ext_wfn).
  set (out := fun c => default nil_slice (mp h2 l !! (KInt, c))).
  assert (Hout : forall c, c ∈ cols -> mp h2 l !! (KInt, c) = Some (out c) /\
             fresh_col h1 h2 (out c) (replicate n (zero_of KInt))).
  { intros c Hin. destruct (N2 c Hin) as (s & Hs & Hf). unfold out. rewrite Hs. done. }
  assert (Hmp2 : mp h2 (r_maps (d_raw d)) = m) by (apply (ext_mp _ _ _ X2), W).
  destruct (hash_loop d n l cols out h2 W2) with (res := v) as (h3 & E3 & W3 & O3 & V3).
  { intros c Hin. rewrite Hmp2. auto. }
  { intros c Hin. destruct (Hout c Hin) as [Ho Hf]. split; [done|]. split.
    - eapply fresh_col_ok; [done|]. by apply forall_replicate.
    - destruct Hf as (_ & _ & Hf & _). by rewrite Hf, replicate_length. }
  { intros c c' k s Hnz Hin Hs. rewrite Hmp2 in Hs. destruct (Hout c Hin) as [_ [Hf Hf']].
    destruct (wfn_col _ _ _ _ _ W Hs) as (Hcs & Hln & _).
    destruct (col_ok_arr_cases _ _ _ Hcs) as [Hlt|(Hz1 & Hz2 & Hz3)].
    - rewrite Ea1 in Hf. lia.
    - lia. }
  { intros c1 c2 H1 H2 Hne12. destruct (Hout c1 H1) as [Ho1 _], (Hout c2 H2) as [Ho2 _].
    eapply (D2 (KInt, c1) (KInt, c2)); try done; try (apply elem_of_list_fmap; eauto).
    congruence. }
  { done. }
  rewrite (bind_eq _ _ _ _ _ E3). exists v, h3. split; [done|].
  assert (Hyoung : forall c (a : nat * nat), c ∈ cols -> a.1 < length (h_arr h) -> a.1 <> s_arr (out c)).
  { intros c a Hin Ha. destruct (Hout c Hin) as [_ [Hf _]]. rewrite Ea1 in Hf. lia. }
  assert (X3 : ext h h3).
  { eapply ext_wrt_young; [exact X2|exact W3|]. intros a Ha. apply O3. eauto. }
  (* the map of the result *)
  assert (Hmv : forall k : key, mp h3 l !! k =
     if decide (k.1 = KInt /\ k.2 ∈ cols) then Some (out k.2)
     else if decide (k.2 ∉ cols) then m !! k else None).
  { intros [k c]. rewrite (wrt_mp _ _ _ W3). simpl. case_decide as Hd.
    - destruct Hd as [-> Hin]. by apply Hout.
    - rewrite K2.
      2:{ intros (c' & [= -> ->] & Hc')%elem_of_list_fmap. naive_solver. }
      rewrite F1. fold m. destruct (m !! (k, c)) as [s|] eqn:Es.
      + case_decide as Hd2.
        * apply map_filter_lookup_Some. split; [done|]. simpl. apply (Hoth (k, c)); eauto.
        * apply map_filter_lookup_None. right. intros s' _ Hs'. simpl in Hs'.
          apply (Hoth (k, c)) in Hs'; eauto.
      + rewrite (map_filter_lookup_None_2 _ _ _ (or_introl Es)). by case_decide. }
  split; [done|]. split; [unfold inds; by rewrite I1|]. fold l. split.
  - intros k Hk. rewrite Hmv. rewrite decide_False by naive_solver. by rewrite decide_True.
  - intros k Hk s. fold l. rewrite Hmv. case_decide as Hd; [|by rewrite decide_False by naive_solver].
    intros [= <-]. destruct (Hout k.2 Hk) as [_ [Hf _]]. rewrite Ea1 in Hf. lia.
Qed.
End frame.

(** Drop removes the given columns from the map and leaves the rest. *)
Lemma drop_mp r cols : forall h h', drop_cols r cols h = Ok (tt, h') -> r_maps r < length (h_map h) ->
  (forall k, k.2 ∉ cols -> mp h' (r_maps r) !! k = mp h (r_maps r) !! k) /\
  (forall k s, mp h' (r_maps r) !! k = Some s -> k.2 ∉ cols /\ mp h (r_maps r) !! k = Some s).
Proof.
  change (drop_cols r) with (fun cols => forM cols (drop1 r)). cbv beta.
  induction cols as [|c cols IH]; intros h h' E L; [cbn [forM] in E; injection E as <-; split; [done|]; intros k s Hs; split; [apply not_elem_of_nil|done]|].
  cbn [forM] in E. apply bind_ok in E as ([] & h1 & E1 & E2).
  assert (H1 : length (h_map h1) = length (h_map h) /\ mp h1 (r_maps r) =
    delete (KInt, c) (delete (KBool, c) (delete (KFloat, c) (delete (KObj, c) (mp h (r_maps r)))))).
  { unfold drop1 in E1. destruct (shr_remove_spec (r_shared r) {[c]} h) as (ha & Ea & Oa & _). rewrite (bind_eq _ _ _ _ _ Ea) in E1.
    assert (exists hb, str_remove (r_strs r) {[c]} ha = Ok (tt, hb) /\ h_map hb = h_map ha) as (hb & Eb & Mb).
    { unfold str_remove. destruct (r_strs r); [|by exists ha]. eexists. split; [reflexivity|]. done. }
    rewrite (bind_eq _ _ _ _ _ Eb) in E1. rewrite (bind_eq _ _ hb (mp hb (r_maps r)) hb) in E1 by done.
    injection E1 as <-. simpl. rewrite insert_length, Mb, (os_map _ _ Oa). split; [done|].
    unfold mp. simpl. rewrite list_lookup_insert by (by rewrite Mb, (os_map _ _ Oa)). simpl. by rewrite Mb, (os_map _ _ Oa). }
  destruct H1 as [L1 M1]. destruct (IH h1 h' E2) as [H1 H2]; [by rewrite L1|]. split.
  - intros k Hk. rewrite not_elem_of_cons in Hk. destruct Hk as [Hk Hk']. rewrite H1 by done. rewrite M1.
    destruct k as [k c']. simpl in Hk. by rewrite !lookup_delete_ne by congruence.
  - intros [k c'] s Hs. apply H2 in Hs as [Hn Hs]. rewrite M1 in Hs.
    apply lookup_delete_Some in Hs as [N1 Hs]. apply lookup_delete_Some in Hs as [N2 Hs].
    apply lookup_delete_Some in Hs as [N3 Hs]. apply lookup_delete_Some in Hs as [N4 Hs].
    split; [|done]. apply not_elem_of_cons. split; [|done]. simpl. intros ->. by destruct k.
Qed.

Section onehot.
Context {rt : GoRT}.
Lemma onehot_cells opt t0 e h d v h' : fitted opt t0 e -> wf h d -> drop_safe e (abs h d) ->
  oh_transform e d h = Ok (Some v, h') ->
  ext h h' /\ inds v = inds d /\
  (forall k, (k.1 = KBool /\ k.2 ∈ en_new e) \/ (oh_keep (en_opt e) = false /\ k.2 ∈ en_cats e) -> young_col h h' v k) /\
  (forall k, ~ (k.1 = KBool /\ k.2 ∈ en_new e) -> (oh_keep (en_opt e) = true \/ k.2 ∉ en_cats e) ->
     mp h' (r_maps (d_raw v)) !! k = mp h (r_maps (d_raw d)) !! k).
Proof.
  intros HE W HS. unfold oh_transform. destruct (decide (en_cats e = [])) as [Ec|Ec].
  { intros [= <- <-]. split; [apply ext_refl|]. split; [done|]. split; [|done].
    rewrite Ec. intros k [[_ (c & Hc & _)%(ft_new _ _ _ HE)]|[_ Hc]]; [rewrite Ec in Hc|]; by apply elem_of_nil in Hc. }
  intros E0. assert (Hall : forall c, c ∈ en_cats e -> is_Some (t_cols (abs h d) !! (KInt, c))).
  { intros c Hc. destruct (t_cols (abs h d) !! (KInt, c)) as [x|] eqn:Hn; [by eexists|exfalso].
    apply bind_ok in E0 as (res & hp & E & E0). rewrite (bind_eq _ _ hp (mp hp (r_maps (d_raw res))) hp) in E0 by done.
    assert (ER : run_jobs (oh_job e (mp hp (r_maps (d_raw res))) res) (en_cats e) hp = Panic).
    { rewrite run_jobs_seq. rewrite (seq_all_none _ (c, oh_job e (mp hp (r_maps (d_raw res))) res c)); [done| |].
      - apply elem_of_list_fmap. by exists c.
      - intros h1. simpl. unfold oh_prepare in E. pose proof (wf_view _ _ W) as [n Wn].
        destruct (alloc_cols_spec KBool (d_raw (view d)) (en_new e) h) as
          (r2 & h2 & E2 & B1 & B2 & B3 & B4 & B5 & B6 & B7 & B8 & B9 & B9b & B10 & B11);
          [apply Wn|intros l Hl; by apply (wf_shr _ _ _ Wn)|].
        rewrite (bind_eq _ _ _ _ _ E2) in E. unfold ret in E. assert (res = set_raw (view d) r2 /\ hp = h2) as [-> ->] by (split; congruence).
        unfold oh_job. simpl. rewrite (B10 (KInt, c)) by (by left). rewrite abs_cols_lookup in Hn. simpl.
        destruct (mp h (r_maps (d_raw d)) !! (KInt, c)); [done|]. done. }
    unfold bind at 1 in E0. by rewrite ER in E0. }
  destruct (oh_prepare_spec e h d W Hall Ec) as (res & hp & E & P).
  rewrite (bind_eq _ _ _ _ _ E) in E0. rewrite (bind_eq _ _ hp (mp hp (r_maps (d_raw res))) hp) in E0 by done.
  destruct (oh_jobs_run opt t0 e HE h d W Hall Ec res hp P (en_cats e)) with (h1 := hp) as (errs & h1 & E1 & W1 & B1 & F1 & T1); [done|done|done|].
  assert (ER : run_jobs (oh_job e (mp hp (r_maps (d_raw res))) res) (en_cats e) hp = Ok (errs, h1)) by (rewrite run_jobs_seq; by rewrite E1).
  rewrite (bind_eq _ _ _ _ _ ER) in E0.
  assert (Hold : forall a, a.1 < length (h_arr h) -> cell_val h1 a = cell_val hp a).
  { intros a Ha. destruct (F1 a) as [|[(c & Hc & Ht) _]]; [done|]. pose proof (tgt_new opt t0 e HE h d W Hall Ec res hp P c a Hc Ht) as [Hge _]. lia. }
  pose proof (written_ext e h d res hp P h1 W1 Hold) as X1.
  unfold oh_finish in E0. destruct (existsb snd errs) eqn:Ee; [done|].
  apply bind_ok in E0 as ([] & h2 & E2 & E3). injection E3 as <- <-.
  assert (Hlen : r_maps (d_raw res) < length (h_map h1)).
  { rewrite (w_map _ _ W1). destruct (pr_wf _ _ _ _ _ P) as [n Wp]. apply Wp. }
  assert (HD : ext h h2 /\ (forall k, (oh_keep (en_opt e) = true \/ k.2 ∉ en_cats e) ->
      mp h2 (r_maps (d_raw res)) !! k = mp h1 (r_maps (d_raw res)) !! k) /\
    (forall k s, mp h2 (r_maps (d_raw res)) !! k = Some s -> ~ (oh_keep (en_opt e) = false /\ k.2 ∈ en_cats e) /\
       mp h1 (r_maps (d_raw res)) !! k = Some s)).
  { destruct (oh_keep (en_opt e)) eqn:Ek.
    - injection E2 as <-. split; [done|]. split; [done|]. intros k s Hs. split; [by intros [? _]|done].
    - destruct HS as [?|(Hn & Hdis & Hst)]; [congruence|].
      destruct (drop_mp _ _ _ _ E2 Hlen) as [D1 D2]. split; [|split; [|intros k s [? ?]%D2; naive_solver]].
      + pose proof (wrt_wf _ _ _ W1 (pr_wf _ _ _ _ _ P)) as [n1 Wn1].
        destruct (drop_ext h (d_raw res) (en_cats e) h1 X1) as (h2' & E2' & X2).
        * by apply (pr_fresh _ _ _ _ _ P).
        * apply Wn1.
        * intros l Hl. by apply (wf_str _ _ _ Wn1).
        * intros c Hc. rewrite (wrt_ostr _ _ _ W1). specialize (Hst c Hc). pose proof (f_equal t_strs (pr_abs _ _ _ _ _ P)) as ES. simpl in ES. by rewrite ES.
        * congruence.
      + intros k [?|Hk]; [done|]. by apply D1. }
  destruct HD as (X2 & D1 & D2). split; [done|]. split; [apply (pr_inds _ _ _ _ _ P)|]. split.
  - intros [kd n] Hk s Hs. apply D2 in Hs as [Hnk Hs]. destruct Hk as [[Hk Hn]|Hk]; [|done]. simpl in Hk, Hn. subst kd.
    rewrite (wrt_mp _ _ _ W1) in Hs. destruct (pr_new _ _ _ _ _ P n Hn) as (t & Ht & Hf). rewrite Ht in Hs. injection Hs as <-. apply Hf.
  - intros k Hk Hk2. rewrite D1 by done. rewrite (wrt_mp _ _ _ W1). apply (pr_old _ _ _ _ _ P).
    destruct (decide (k.1 = KBool)); [right|by left]. naive_solver.
Qed.
End onehot.

Definition step (h : heap) (d : dframe) (h' : heap) (v : dframe) (T : key -> Prop) : Prop :=
  ext h h' /\ inds v = inds d /\ (forall k, T k -> young_col h h' v k) /\
  (forall k, ~ T k -> mp h' (r_maps (d_raw v)) !! k = mp h (r_maps (d_raw d)) !! k).
Lemma step_contract h d h' v T : step h d h' v T -> contract h d h' v T.
Proof.
  intros (X & I & Y & O). split.
  - intros k Hk d0 k0 W0. by apply (cells_apart_old h); [apply Y| |].
  - intros k j Hk. unfold cell_of. by rewrite (O k Hk), I.
Qed.
Lemma step_refl h d : step h d h d (fun _ => False).
Proof. split; [apply ext_refl|]. done. Qed.
Lemma step_trans h0 d0 h1 d1 h2 d2 T1 T2 (D : forall k, Decision (T2 k)) :
  step h0 d0 h1 d1 T1 -> step h1 d1 h2 d2 T2 -> step h0 d0 h2 d2 (fun k => T1 k \/ T2 k).
Proof.
  intros (X1 & I1 & Y1 & O1) (X2 & I2 & Y2 & O2). split; [by eapply ext_trans|]. split; [congruence|]. split.
  - intros k Hk s Hs. destruct (decide (T2 k)) as [H2|H2].
    + specialize (Y2 k H2 s Hs). destruct X1 as [X1 _ _ _ _]. apply prefix_length in X1. lia.
    + rewrite (O2 k H2) in Hs. destruct Hk as [Hk|]; [|done]. by apply (Y1 k Hk).
  - intros k Hk. rewrite (O2 k), (O1 k); tauto.
Qed.
Lemma step_iff h d h' v T T' : (forall k, T k <-> T' k) -> step h d h' v T -> step h d h' v T'.
Proof. intros HT (X & I & Y & O). split; [done|]. split; [done|]. split; intros k Hk; [apply Y|apply O]; by rewrite HT. Qed.
Global Instance onehot_touches_dec e k : Decision (onehot_touches e k).
Proof. unfold onehot_touches. apply _. Defined.

Section contract.
Context {rt : GoRT}.
Lemma C102_hash_partial_main h d cols : wf h d -> 
  (forall c, c ∈ cols -> is_Some (t_cols (abs h d) !! (KObj, c))) ->
  (exists k, is_Some (t_cols (abs h d) !! k) /\ k.2 ∉ cols) ->
  exists v h', hash_encoder_transform cols d h = Ok (v, h') /\ contract h d h' v (fun k => k.2 ∈ cols).
Proof.
  intros W Hs Hk. unfold hash_encoder_transform. destruct (decide (cols = [])) as [-> | Hne].
  - exists (view d), h. split; [done|]. split; [intros k Hx; by apply elem_of_nil in Hx|done].
  - destruct (hash_view_cells h d cols W Hne Hs Hk) as (v & h' & E & X & I & O & Y). exists v, h'. split; [done|].
    by apply step_contract.
Qed.

Lemma onehot_step_cells opt t0 e h d v h' : fitted opt t0 e -> wf h d -> drop_safe e (abs h d) ->
  oh_transform e d h = Ok (Some v, h') -> step h d h' v (onehot_touches e).
Proof.
  intros HE W HS E. destruct (onehot_cells opt t0 e h d v h' HE W HS E) as (X & I & Y & O).
  split; [done|]. split; [done|]. split; [done|]. intros k Hk. unfold onehot_touches in Hk. apply O; [tauto|].
  destruct (oh_keep (en_opt e)); [by left|right; tauto].
Qed.
Lemma C102_onehot_main opt t0 e h d v h' : fitted opt t0 e -> wf h d -> drop_safe e (abs h d) ->
  oh_transform e d h = Ok (Some v, h') -> contract h d h' v (onehot_touches e).
Proof. intros HE W HS E. by eapply step_contract, onehot_step_cells. Qed.

(** Imputing and scaling write to arrays only. *)
Lemma auto_floats_wrt order (Ho : forall X : gset string, order X ≡ₚ elements X) p v h h' : wf h v ->
  ((match ap_imputer p with Some f => imputer_transform order f v | None => ret tt end) ;;*
   (match ap_scaler p with Some s => scaler_transform order s v | None => ret tt end)) h = Ok (tt, h') -> wrt h h'.
Proof.
  intros W E. apply bind_ok in E as ([] & h1 & E1 & E2).
  assert (W1 : wrt h h1).
  { destruct (ap_imputer p) as [f|]; [|by injection E1 as <-]. unfold imputer_transform in E1.
    pose proof (update_columns_spec (fun c => impute_value (default f64_zero (f !! c))) v (order (dom f)) h W) as H.
    cbv beta in H. rewrite E1 in H. by destruct H as (_ & H & _). }
  etrans; [exact W1|]. destruct (ap_scaler p) as [s|]; [|by injection E2 as <-].
  rewrite scaler_transform_eq in E2 by done.
  pose proof (update_columns_spec (scale_value s) v (order (spec_cols s)) h1 (wrt_wf _ _ _ W1 W)) as H.
  rewrite E2 in H. by destruct H as (_ & H & _).
Qed.

(** Unshare with the names of all the float columns to be transformed. *)
Lemma unshare_set_floats h d (F : gset string) cols : cols ≡ₚ elements F -> F <> ∅ ->
  (forall c, c ∈ F -> is_Some (t_cols (abs h d) !! (KFloat, c))) ->
  unshare_set (d_raw d) (mp h (r_maps (d_raw d))) cols = F.
Proof.
  intros HP HF Hin. unfold unshare_set. set (m := mp h (r_maps (d_raw d))).
  assert (Hm : forall c, c ∈ F -> is_Some (m !! (KFloat, c))).
  { intros c Hc. specialize (Hin c Hc). rewrite abs_cols_lookup in Hin. fold m in Hin. destruct (m !! (KFloat, c)); [by eexists|by destruct Hin]. }
  destruct (decide _) as [[Hnil|Hlen]|Hn].
  - exfalso. subst cols. symmetry in HP. apply Permutation_nil_r in HP. apply elements_empty_inv in HP. by apply HF, leibniz_equiv.
  - set (K := list_to_set ((fun c : string => (KFloat, c)) <$> elements F) : gset key).
    assert (HK : K = dom m).
    { assert (Hsub : K ⊆ dom m).
      { intros k Hk. apply elem_of_list_to_set, elem_of_list_fmap in Hk as (c & -> & Hc). apply elem_of_dom, Hm. by apply elem_of_elements. }
      assert (Hsz : size K = size (dom m)).
      { unfold K. rewrite size_list_to_set, fmap_length by (apply NoDup_fmap_2; [by intros ?? [= ->]|apply NoDup_elements]).
        rewrite size_dom. unfold num_columns in Hlen. rewrite <- Hlen. by rewrite HP. }
      assert (Hd : dom m ∖ K = ∅).
      { apply leibniz_equiv, size_empty_iff. rewrite size_difference by done. lia. }
      apply (anti_symm (⊆)); [done|]. intros k Hk. destruct (decide (k ∈ K)) as [|Hn]; [done|].
      assert (Hx : k ∈ dom m ∖ K) by (by apply elem_of_difference). rewrite Hd in Hx. by apply elem_of_empty in Hx. }
    apply set_eq. intros c. rewrite elem_of_names. split.
    + intros (k & s & Hs). assert (Hd : (k, c) ∈ K) by (rewrite HK; apply elem_of_dom; by eexists).
      apply elem_of_map in Hd as (c' & [= -> ->] & Hc'). done.
    + intros Hc. destruct (Hm c Hc) as [s Hs]. by exists KFloat, s.
  - apply set_eq. intros c. by rewrite elem_of_list_to_set, HP, elem_of_elements.
Qed.

Lemma floats_step order (Ho : forall X : gset string, order X ≡ₚ elements X) opt t0 p h d : auto_fitted opt t0 p -> wf h d ->
  (forall c, floats_touched p c -> is_Some (t_cols (abs h d) !! (KFloat, c))) ->
  (ap_imputer p = None /\ ap_scaler p = None \/ exists c, floats_touched p c) ->
  exists v h', auto_transform_floats order p d h = Ok (v, h') /\ wf h' v /\ abs h' v = prep_floats (reps d) p (abs h d) /\
    step h d h' v (fun k => floats_touched p k.2).
Proof.
  intros HA W Hin Hsome. destruct (fitted_floats opt t0 p HA) as (F & HF & _ & HF0).
  assert (HT : forall c, c ∈ F <-> floats_touched p c).
  { intros c. destruct HF as [HF1 HF2]. unfold floats_touched. split.
    - intros Hc. destruct (ap_imputer p) as [f|] eqn:EI; [left; exists f; by rewrite (HF1 f)|].
      destruct (ap_scaler p) as [s|] eqn:ES; [right; exists s; by rewrite (proj2 (HF2 s eq_refl))|].
      rewrite HF0 in Hc by done. by apply elem_of_empty in Hc.
    - intros [(f & Ef & Hc)|(s & Es & Hc)]; [by rewrite (HF1 f Ef) in Hc|by rewrite (proj2 (HF2 s Es)) in Hc]. }
  destruct (auto_floats_spec order Ho p F h d W HF) as (v & h1 & E & X & W1 & Ei & A); [intros c Hc; by apply Hin, HT|].
  exists v, h1. split; [done|]. split; [done|]. split; [done|].
  assert (HD : (ap_imputer p = None /\ ap_scaler p = None) \/
    exists cols, cols ≡ₚ elements F /\ ~ (ap_imputer p = None /\ ap_scaler p = None) /\ auto_transform_floats order p d h = (let* d := detached_view d cols in
      (match ap_imputer p with Some f => imputer_transform order f d | None => ret tt end) ;;*
      (match ap_scaler p with Some s => scaler_transform order s d | None => ret tt end) ;;* ret d) h).
  { destruct HF as [HF1 HF2]. unfold auto_transform_floats. destruct (ap_imputer p) as [f|]; [|destruct (ap_scaler p) as [s|]; [|by left]]; right.
    - exists (order (dom f)). split; [by rewrite Ho, (HF1 f eq_refl)|]. split; [by intros [? _]|done].
    - exists (order (scaled_columns s)). split; [by rewrite Ho, scaled_columns_spec, (proj1 (HF2 s eq_refl))|]. split; [by intros [_ ?]|done]. }
  destruct HD as [[EI ES]|(cols & HP & Hnn & ED)].
  { unfold auto_transform_floats in E. rewrite EI, ES in E. injection E as <- <-.
    eapply step_iff; [|apply step_refl]. intros k. split; [done|]. unfold floats_touched. rewrite EI, ES. naive_solver. }
  assert (HFn : F <> ∅).
  { destruct Hsome as [|(c & Hc)]; [done|]. apply HT in Hc. intros ->. by apply elem_of_empty in Hc. }
  rewrite ED in E. destruct (detached_view_spec h d cols W) as (v' & hv & E1 & X1 & Wv & _ & I1 & _ & _ & Y1 & O1).
  rewrite (bind_eq _ _ _ _ _ E1) in E.
  assert (HW : v = v' /\ wrt hv h1).
  { apply bind_ok in E as ([] & ha & Ea & E). apply bind_ok in E as ([] & hb & Eb & E). injection E as <- <-. split; [done|].
    apply (auto_floats_wrt order Ho p v' hv hb Wv). by rewrite (bind_eq _ _ _ _ _ Ea). }
  destruct HW as [-> HW]. rewrite (unshare_set_floats h d F cols HP HFn) in Y1, O1 by (intros c Hc; by apply Hin, HT).
  split; [done|]. split; [done|]. split.
  - intros k Hk s. rewrite (wrt_mp _ _ _ HW). apply Y1. by apply HT.
  - intros k Hk. rewrite (wrt_mp _ _ _ HW). apply O1. by rewrite HT.
Qed.

Lemma C102_auto_partial_main order (Ho : forall X : gset string, order X ≡ₚ elements X) opt t0 p h d :
  auto_fitted opt t0 p -> no_clash t0 -> wf h d -> unique_names (abs h d) ->
  (forall c, c ∈ t_strs (abs h d) -> is_Some (t_cols (abs h d) !! (KObj, c))) -> has_inputs p (abs h d) ->
  (* something is there to impute or to scale, or neither is wanted *)
  (ap_imputer p = None /\ ap_scaler p = None \/ exists c, floats_touched p c) ->
  exists v h', auto_transform order p d h = Ok (Some v, h') /\ contract h d h' v (auto_touches p).
Proof.
  intros HA HN W HU HO HI Hsome. destruct (transform_spec order Ho opt t0 p h d HA HN W HU HO HI) as (v & h' & E & W' & _ & _ & _).
  exists v, h'. split; [done|]. destruct HI as (I1 & I2 & I3 & I4 & I5).
  destruct (floats_step order Ho opt t0 p h d HA W) as (v1 & h1 & E1 & W1 & A1 & S1); [|done|].
  { intros c [(f & Ef & Hc)|(s & Es & Hc)]; [by eapply I1|by eapply I2]. }
  unfold auto_transform in E. rewrite (bind_eq _ _ _ _ _ E1) in E.
  assert (H2 : exists v2 h2, (match ap_hash p with Some cols => hash_encoder_transform cols v1 | None => ret v1 end) h1 = Ok (v2, h2) /\
    wf h2 v2 /\ abs h2 v2 = prep_strings p (prep_floats (reps d) p (abs h d)) /\
    step h1 v1 h2 v2 (fun k => exists cols, ap_hash p = Some cols /\ k.2 ∈ cols)).
  { unfold prep_strings. destruct (ap_hash p) as [cols|] eqn:EH.
    2:{ exists v1, h1. split; [done|]. split; [done|]. split; [done|]. eapply step_iff; [|apply step_refl]. naive_solver. }
    assert (Hne : cols <> []).
    { pose proof (af_hash _ _ _ HA) as H. rewrite EH in H. destruct H as [Hne HP]. intros ->.
      symmetry in HP. apply Permutation_nil_r in HP. apply elements_empty_inv in HP. by apply Hne, leibniz_equiv. }
    assert (Hs : forall c, c ∈ cols -> is_Some (t_cols (abs h1 v1) !! (KObj, c))).
    { intros c Hc. rewrite A1. apply prep_floats_dom. by eapply I3. }
    assert (Hk : exists k, is_Some (t_cols (abs h1 v1) !! k) /\ k.2 ∉ cols).
    { destruct (I4 cols eq_refl) as (k & Hk & Hk2). exists k. split; [|done]. rewrite A1. by apply prep_floats_dom. }
    destruct (hash_strings_view_spec h1 v1 cols W1 Hne Hs Hk) as (v2 & h2 & E2 & W2 & X2 & A2).
    destruct (hash_view_cells h1 v1 cols W1 Hne Hs Hk) as (v2' & h2' & E2' & X & I & O & Y).
    rewrite E2 in E2'. injection E2' as <- <-. exists v2, h2. split; [done|]. split; [done|]. split; [by rewrite A2, A1|].
    apply (step_iff _ _ _ _ (fun k => k.2 ∈ cols)); [naive_solver|]. done. }
  destruct H2 as (v2 & h2 & E2 & W2 & A2 & S2). rewrite (bind_eq _ _ _ _ _ E2) in E. apply step_contract.
  assert (D2 : forall k : key, Decision (exists cols, ap_hash p = Some cols /\ k.2 ∈ cols)).
  { intros k. destruct (ap_hash p) as [cols|]; [|right; naive_solver]. destruct (decide (k.2 ∈ cols)); [left; naive_solver|right; naive_solver]. }
  pose proof (step_trans _ _ _ _ _ _ _ _ D2 S1 S2) as S12.
  destruct (ap_onehot p) as [e|] eqn:EO.
  - pose proof (af_onehot _ _ _ HA) as H. rewrite EO in H. destruct H as (Hex & t1 & HF & H).
    assert (HC : forall c, c ∈ en_cats e -> c ∉ t_strs (abs h2 v2)).
    { intros c Hc. rewrite A2. pose proof (proj1 (fitted_cats opt t0 p e c HA EO) Hc) as Hcat.
      pose proof (af_hash _ _ _ HA) as HH. unfold prep_strings. destruct (ap_hash p) as [cols|] eqn:EH.
      - destruct HH as [Hne HP]. unfold categorical in Hcat. rewrite decide_False in Hcat by done.
        assert (Hcols : c ∈ cols) by (by rewrite HP, elem_of_elements).
        unfold t_hash. cbn [t_strs]. rewrite elem_of_filter. naive_solver.
      - specialize (I5 e c eq_refl eq_refl Hc). intros Hst.
        rewrite (proj2 (prep_floats_rest (reps d) p (abs h d))) in Hst. specialize (HU KInt KObj c I5 (HO c Hst)). done. }
    pose proof (onehot_step_cells auto_oh t1 e h2 v2 v h' HF W2) as S3.
    apply (step_iff _ _ _ _ _ _) with (2 := step_trans _ _ _ _ _ _ _ _ (onehot_touches_dec e) S12 (S3 ltac:(eapply auto_drop_safe; [done|done|by intros c; apply H|done|done]) E)).
    intros k. unfold auto_touches. rewrite EO. naive_solver.
  - injection E as <- <-. apply (step_iff _ _ _ _ _ _) with (2 := S12). intros k. unfold auto_touches. rewrite EO. naive_solver.
Qed.
End contract.

(** ** Counterexamples and concrete cases *)
Definition touches_b (p : auto) (k : key) : bool :=
  match ap_imputer p with Some f => bool_decide (k.2 ∈ dom f) | None => false end ||
  match ap_scaler p with Some s => bool_decide (k.2 ∈ scale_names s) | None => false end ||
  match ap_hash p with Some cols => bool_decide (k.2 ∈ cols) | None => false end ||
  match ap_onehot p with Some e => bool_decide (onehot_touches e k) | None => false end.
Lemma touches_b_spec p k : auto_touches p k -> touches_b p k = true.
Proof.
  unfold touches_b. intros [[(f & -> & H)|(s & -> & H)]|[(cols & -> & H)|(e & -> & H)]]; rewrite (bool_decide_eq_true_2 _ H), ?orb_true_r; done.
Qed.
Section wit.
Existing Instance ex_rt.
Definition w5_hash : dframe * heap := run_df (hash_encoder_transform ["s"] w5.1) w5.2.
Lemma C102_hash_refuted_main : exists cols d h v h', wf h d /\
  (forall c, c ∈ cols -> is_Some (t_cols (abs h d) !! (KObj, c))) /\
  hash_encoder_transform cols d h = Ok (v, h') /\ ~ contract h d h' v (fun k => k.2 ∈ cols).
Proof.
  exists ["s"], w5.1, w5.2, w5_hash.1, w5_hash.2.
  assert (W : wf w5.2 w5.1) by (apply (wf_check_sound _ _ 2); by vm_compute). split; [done|].
  split; [intros c ->%elem_of_list_singleton; apply (bool_decide_unpack _); by vm_compute|]. split; [by vm_compute|].
  intros [H _]. specialize (H (KObj, "s") ltac:(by apply elem_of_list_singleton) w5.1 (KObj, "s") W 0 0
    (default (0, 0) (cell_of w5_hash.2 w5_hash.1 (KObj, "s") 0))). apply H; by vm_compute.
Qed.
(** No floats: DetachedView() without names copies everything. *)
Definition w6 : dframe * heap := run_df (let* r := new_raw in
  let* r := b_add KInt r "a" [VInt 5; VInt 3] in
  let* r := b_add KBool r "f" [VBool true; VBool false] in to_dataframe r) ex_h.
Definition w6_fit := run_autofit wa_opt (new_auto wa_opt) w6.
Definition w6_tr := run_autotr w6_fit.1 (w6.1, w6_fit.2).
Lemma C102_auto_refuted_main : exists opt d h p h1 v h2, wf h d /\ auto_fit elts ord0 (new_auto opt) d h = Ok (p, h1) /\
  auto_transform elts p d h1 = Ok (Some v, h2) /\ ~ contract h1 d h2 v (auto_touches p).
Proof.
  exists wa_opt, w6.1, w6.2, w6_fit.1, w6_fit.2, w6_tr.1, w6_tr.2.
  split; [apply (wf_check_sound _ _ 2); by vm_compute|]. split; [by vm_compute|]. split; [by vm_compute|].
  intros [_ H]. specialize (H (KBool, "f") 0). assert (N : ~ auto_touches w6_fit.1 (KBool, "f")).
  { intros Hx%touches_b_spec. assert (E : touches_b w6_fit.1 (KBool, "f") = false) by (by vm_compute). congruence. }
  specialize (H N). revert H. by vm_compute.
Qed.
Lemma C102_check_main : wf ex_h ex_d /\ auto_fitted wa_opt (abs ex_h ex_d) wa_fit.1 /\ floats_touched wa_fit.1 "b" /\
  ~ auto_touches wa_fit.1 (KBool, "f") /\ cell_of wa_tr.2 wa_tr.1 (KBool, "f") 0 = cell_of ex_h ex_d (KBool, "f") 0 /\
  is_Some (cell_of ex_h ex_d (KBool, "f") 0) /\ is_Some (cell_of wa_tr.2 wa_tr.1 (KFloat, "b") 0) /\
  cell_of wa_tr.2 wa_tr.1 (KFloat, "b") 0 <> cell_of ex_h ex_d (KFloat, "b") 0 /\
  is_Some (cell_of wa_tr.2 wa_tr.1 (KBool, "s_missing") 0) /\ cell_of wa_tr.2 wa_tr.1 (KObj, "s") 0 = None.
Proof.
  destruct C58_check_main as (W & _ & _ & _ & _ & HA & _). split; [done|]. split; [done|]. split.
  { destruct (ap_imputer wa_fit.1) as [f|] eqn:E; [|by vm_compute in E]. left. exists f. split; [done|].
    assert (X : match ap_imputer wa_fit.1 with Some f => bool_decide ("b" ∈ dom f) | None => false end = true) by (by vm_compute).
    rewrite E in X. by apply bool_decide_eq_true in X. }
  split.
  { intros Hx%touches_b_spec. assert (E : touches_b wa_fit.1 (KBool, "f") = false) by (by vm_compute). congruence. }
  split; [by vm_compute|]. split; [apply (bool_decide_unpack _); by vm_compute|]. split; [apply (bool_decide_unpack _); by vm_compute|].
  split; [by vm_compute|]. split; [apply (bool_decide_unpack _); by vm_compute|]. by vm_compute.
Qed.
End wit.
