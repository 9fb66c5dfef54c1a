(** HashStringsView. *)
From Verif Require Export P_Read.

(** Writes to young arrays only extend the old heap. *)
Lemma ext_wrt_young h0 h h' : ext h0 h -> wrt h h' ->
  (forall a, a.1 < length (h_arr h0) -> cell_val h' a = cell_val h a) -> ext h0 h'.
Proof.
  intros [Y1 Y2 Y3 Y4 Y5] [Z1 Z2 Z3 Z4 Z5 Z6] Hc.
  split; rewrite ?Z2, ?Z3, ?Z4; try done.
  - destruct Y1 as [tl Y1]. exists (drop (length (h_arr h0)) (h_arr h')).
    rewrite <- (take_drop (length (h_arr h0)) (h_arr h')) at 1. f_equal.
    apply list_eq. intros i. destruct (decide (i < length (h_arr h0))) as [Hi|Hi].
    + rewrite lookup_take by done.
      assert (Hi2 : i < length (h_arr h)) by (rewrite Y1, app_length; lia).
      assert (Hi4 : i < length (h_arr h')) by lia.
      destruct (lookup_lt_is_Some_2 _ _ Hi4) as [x Ex].
      destruct (lookup_lt_is_Some_2 _ _ Hi2) as [y Ey].
      assert (arr h' i = arr h i) as Ea.
      { apply list_eq. intros j. by apply (Hc (i, j)). }
      unfold arr in Ea. rewrite Ex, Ey in Ea. simpl in Ea. subst y. rewrite Ex.
      rewrite Y1, lookup_app_l in Ey by done. done.
    + rewrite lookup_take_ge by lia. symmetry. apply lookup_ge_None_2. lia.
  - intros i. unfold marr. rewrite Z1. apply Y5.
Qed.

Section frame.
Context {rt : GoRT}.

Definition map_into (f : val -> val) (src dst : slice) (ix : list nat) : M unit :=
  forM ix (fun i => let* v := sl_rd src i in sl_wr dst i (f v)).

Lemma sl_vals_other h h' s : (forall a, a.1 = s_arr s -> cell_val h' a = cell_val h a) ->
  sl_vals h' s = sl_vals h s.
Proof.
  intros H. unfold sl_vals. f_equal. f_equal. apply list_eq. intros j. by apply (H (s_arr s, j)).
Qed.

Lemma map_into_spec f k1 k2 src dst : (forall v, kind_of v = k1 -> kind_of (f v) = k2) ->
  forall ix h, col_ok h k1 src -> col_ok h k2 dst -> (ix <> [] -> s_arr src <> s_arr dst) ->
  Forall (fun i => i < s_len src) ix -> Forall (fun i => i < s_len dst) ix ->
  exists h', map_into f src dst ix h = Ok (tt, h') /\ wrt h h' /\
    (forall a, a.1 <> s_arr dst -> cell_val h' a = cell_val h a) /\
    (forall i, i < s_len dst -> sl_vals h' dst !! i =
       if decide (i ∈ ix) then f <$> sl_vals h src !! i else sl_vals h dst !! i).
Proof.
  intros Hf. induction ix as [|i ix IH]; intros h Hs Hd Hne F1 F2.
  - exists h. split; [done|]. split; [done|]. split; [done|]. intros j _.
    by rewrite decide_False by set_solver.
  - apply Forall_cons in F1 as [Hi1 F1]. apply Forall_cons in F2 as [Hi2 F2].
    destruct (col_ok_cell h k1 src i Hs Hi1) as (v & Hv & Hk & _).
    destruct (col_ok_cell h k2 dst i Hd Hi2) as (w & Hw & Hkw & Ha).
    assert (Hrd : sl_vals h src !! i = Some v) by (rewrite sl_vals_lookup by done; exact Hv).
    set (h1 := upd h (s_arr dst, s_off dst + i) (f v)).
    assert (W1 : wrt h h1) by (eapply upd_wrt; [exact Hw|rewrite Hkw; by apply Hf]).
    assert (Hlen : s_off dst + i < length (arr h (s_arr dst))).
    { destruct Hd as (? & ? & _). lia. }
    assert (C1 : forall b, cell_val h1 b = if decide (b = (s_arr dst, s_off dst + i)) then Some (f v) else cell_val h b).
    { intros b. apply (upd_cell_val h (s_arr dst, s_off dst + i) (f v) b); done. }
    assert (E : map_into f src dst (i :: ix) h = map_into f src dst ix h1).
    { unfold map_into. simpl. unfold bind at 1 2. unfold sl_rd. rewrite Hrd.
      unfold sl_wr. by rewrite decide_True. }
    assert (Hs1 : sl_vals h1 src = sl_vals h src).
    { apply sl_vals_other. intros a Hea. rewrite C1, decide_False; [done|]. intros ->. simpl in Hea. by apply Hne. }
    destruct (IH h1) as (h' & E2 & W2 & O2 & V2); [by eapply wrt_col_ok|by eapply wrt_col_ok|by intros _; apply Hne|done|done|].
    exists h'. split; [by rewrite E|]. split; [by etrans|]. split.
    + intros a Hane. rewrite O2, C1 by done. rewrite decide_False; [done|]. intros ->. done.
    + intros j Hj. rewrite V2, Hs1 by done. rewrite (sl_vals_lookup h1 dst), (sl_vals_lookup h dst) by done.
      pose proof (C1 (s_arr dst, s_off dst + j)) as Cj. unfold cell_val in Cj. simpl in Cj.
      rewrite Cj. destruct (decide (j ∈ ix)) as [Hin|Hin].
      * rewrite decide_True by set_solver. done.
      * destruct (decide (j = i)) as [->|Hji].
        -- rewrite decide_True by done. rewrite decide_True by set_solver. by rewrite Hrd.
        -- rewrite decide_False by (intros [=]; lia). by rewrite decide_False by set_solver.
Qed.

Lemma hash_val_spec v : hash_val v = spec_hash v.
Proof.
  destruct v as [[|s|]| | |]; try done. simpl. f_equal.
  rewrite N2Z.inj_mod. f_equal. unfold fnv1a, spec_fnv1a.
  change 14695981039346656037%Z with (Z.of_N 14695981039346656037).
  generalize 14695981039346656037%N. induction s as [|c s IH]; intros n; [done|].
  simpl. rewrite IH. f_equal. unfold fnv_step.
  rewrite N2Z.inj_mod, N2Z.inj_mul. f_equal. f_equal. symmetry. by destruct n, (Ascii.N_of_ascii c).
Qed.
Lemma hash_val_kind v : kind_of (hash_val v) = KInt.
Proof. by destruct v as [[]| | |]. Qed.

Lemma hash_cols_lookup_out from cols k : (k.1 <> KInt \/ k.2 ∉ cols) -> forall to,
  hash_cols cols from to !! k = to !! k.
Proof.
  unfold hash_cols. intros Hk. induction cols as [|c0 cols IH]; intros to; [done|].
  simpl. rewrite IH by set_solver. destruct (from !! (KObj, c0)); [|done].
  rewrite lookup_insert_ne; [done|]. intros <-. simpl in Hk. set_solver.
Qed.
Lemma hash_cols_lookup_in from cols : forall to c x, c ∈ cols -> from !! (KObj, c) = Some x ->
  hash_cols cols from to !! (KInt, c) = Some (spec_hash <$> x).
Proof.
  induction cols as [|c0 cols IH]; intros to c x Hc Hx; [by apply elem_of_nil in Hc|].
  destruct (decide (c ∈ cols)) as [Hi|Hi]; [unfold hash_cols; simpl; by apply IH|].
  apply elem_of_cons in Hc as [<-|?]; [|done].
  unfold hash_cols. simpl. rewrite Hx.
  etrans; [by apply (hash_cols_lookup_out from cols (KInt, c)); right|]. by rewrite lookup_insert.
Qed.

(** The loop over the columns. *)
Lemma hash_loop d n l cols out : forall h, wfn h d n ->
  (forall c, c ∈ cols -> exists s, mp h (r_maps (d_raw d)) !! (KObj, c) = Some s) ->
  (forall c, c ∈ cols -> mp h l !! (KInt, c) = Some (out c) /\ col_ok h KInt (out c) /\ s_len (out c) = n) ->
  (forall c c' k s, n <> 0 -> c ∈ cols -> mp h (r_maps (d_raw d)) !! (k, c') = Some s -> s_arr s <> s_arr (out c)) ->
  (forall c1 c2, c1 ∈ cols -> c2 ∈ cols -> c1 <> c2 -> s_arr (out c1) <> s_arr (out c2)) ->
  forall res, r_maps (d_raw res) = l ->
  exists h', forM cols (hash_column d res) h = Ok (tt, h') /\ wrt h h' /\
    (forall a, (forall c, c ∈ cols -> a.1 <> s_arr (out c)) -> cell_val h' a = cell_val h a) /\
    (forall c s, c ∈ cols -> mp h (r_maps (d_raw d)) !! (KObj, c) = Some s ->
       forall i, i ∈ inds d -> sl_vals h' (out c) !! i = hash_val <$> sl_vals h s !! i).
Proof.
  induction cols as [|c cols IH]; intros h W Hin Hout Hap Hdis res Hres.
  - exists h. split; [done|]. split; [done|]. split; [done|]. intros c s Hc. by apply elem_of_nil in Hc.
  - destruct (Hin c) as [s Hs]; [set_solver|]. destruct (Hout c) as (Ho & Hok & Hl); [set_solver|].
    destruct (wfn_col _ _ _ _ _ W Hs) as (Hcs & Hls & _).
    pose proof (wf_rng _ _ _ W) as HF.
    destruct (map_into_spec hash_val KObj KInt s (out c)) with (ix := inds d) (h := h)
      as (h1 & E1 & W1 & O1 & V1); [intros; apply hash_val_kind|done|done| | | |].
    { intros Hix. eapply Hap; [|set_solver|exact Hs]. intros ->.
      destruct (inds d); [done|]. apply Forall_cons_1 in HF as [? _]. lia. }
    { eapply Forall_impl; [exact HF|]. simpl. intros; lia. }
    { eapply Forall_impl; [exact HF|]. simpl. intros; lia. }
    assert (Eh : hash_column d res c h = Ok (tt, h1)).
    { unfold hash_column. unfold bind, get_mp. rewrite Hres, Hs, Ho. simpl. exact E1. }
    assert (Hold : forall k c' s', mp h (r_maps (d_raw d)) !! (k, c') = Some s' -> sl_vals h1 s' = sl_vals h s').
    { intros k c' s' Hs'. destruct (wfn_col _ _ _ _ _ W Hs') as (_ & Hl' & _).
      destruct (decide (n = 0)) as [Hz|Hz]; [rewrite !sl_vals_len0 by lia; done|].
      apply sl_vals_other. intros a Ha. apply O1. rewrite Ha.
      eapply Hap; [done|set_solver|exact Hs']. }
    destruct (IH h1) with (res := res) as (h2 & E2 & W2 & O2 & V2); [by eapply wrt_wfn| | | | |done|].
    { intros c' Hc'. rewrite (wrt_mp _ _ _ W1). apply Hin. set_solver. }
    { intros c' Hc'. rewrite (wrt_mp _ _ _ W1). destruct (Hout c') as (? & ? & ?); [set_solver|].
      split; [done|]. split; [|done]. by eapply wrt_col_ok. }
    { intros c1 c' k s'. rewrite (wrt_mp _ _ _ W1). intros. eapply Hap; [done|set_solver|done]. }
    { intros. apply Hdis; set_solver. }
    exists h2. split; [simpl; by rewrite (bind_eq _ _ _ _ _ Eh)|]. split; [by etrans|]. split.
    + intros a Ha. rewrite O2 by (intros; apply Ha; set_solver). apply O1. apply Ha. set_solver.
    + intros c1 s1 Hc1 Hs1 i Hi.
      destruct (decide (c1 ∈ cols)) as [Hi1|Hi1].
      * rewrite (V2 c1 s1) by (rewrite ?(wrt_mp _ _ _ W1); done).
        by rewrite (Hold _ _ _ Hs1).
      * apply elem_of_cons in Hc1 as [->|?]; [|done].
        rewrite (sl_vals_other h1 h2).
        -- rewrite Hs in Hs1. injection Hs1 as <-.
           rewrite V1.
           ++ by rewrite decide_True.
           ++ rewrite Hl. rewrite Forall_forall in HF. by apply HF.
        -- intros a Ha. apply O2. intros c' Hc'. rewrite Ha. apply Hdis; [set_solver..|]. by intros ->.
Qed.

Lemma hash_strings_view_nil h d : hash_strings_view d [] h = Ok (view d, h).
Proof. done. Qed.

Lemma hash_strings_view_spec h d cols : wf h d -> cols <> [] ->
  (forall c, c ∈ cols -> is_Some (t_cols (abs h d) !! (KObj, c))) ->
  (exists k, is_Some (t_cols (abs h d) !! k) /\ k.2 ∉ cols) ->
  exists v h', hash_strings_view d cols h = Ok (v, h') /\ wf h' v /\ ext h h' /\
    abs h' v = t_hash cols (abs h d).
Proof.
  intros [n W] Hc Hobj [k0 [Hk0 Hk0n]].
  set (m := mp h (r_maps (d_raw d))).
  assert (Hobj' : forall c, c ∈ cols -> exists s, m !! (KObj, c) = Some s).
  { intros c Hin. specialize (Hobj c Hin). rewrite abs_cols_lookup in Hobj. fold m in Hobj.
    destruct (m !! (KObj, c)); [eauto|by destruct Hobj]. }
  assert (Hm0 : is_Some (m !! k0)).
  { rewrite abs_cols_lookup in Hk0. fold m in Hk0. destruct (m !! k0); [eauto|by destruct Hk0]. }
  assert (Hne : m <> ∅) by (intros E; rewrite E, lookup_empty in Hm0; by destruct Hm0).
  unfold hash_strings_view. rewrite decide_False by done. erewrite bind_eq by done. fold m.
  set (others := elements (names m ∖ list_to_set cols)).
  assert (Hoth : forall k, is_Some (m !! k) -> k.2 ∈ others <-> k.2 ∉ cols).
  { intros k [s Hs]. unfold others. rewrite elem_of_elements, elem_of_difference, elem_of_list_to_set.
    split; [tauto|]. intros H. split; [|done]. apply elem_of_names. destruct k. eauto. }
  assert (Hone : others <> []).
  { intros E. assert (k0.2 ∈ others) as H by (by apply Hoth). rewrite E in H. by apply elem_of_nil in H. }
  destruct (column_view_spec h d others) as
    (v & h1 & E1 & A1 & Wv & X1 & Ea1 & M1 & S1 & F1 & St1 & I1 & V1); [by exists n|done|].
  erewrite bind_eq by done. rewrite (nar_ok h n m (wf_cols _ _ _ W) Hne).
  set (l := r_maps (d_raw v)) in *.
  assert (Hl : l < length (h_map h1)) by (destruct Wv as [? Wv]; apply Wv).
  destruct (fill_spec l (fun c : string => (KInt, c)) (fun _ => ret (replicate n (zero_of KInt)))
              (fun _ => replicate n (zero_of KInt)) cols h1) as
    (h2 & E2 & G2 & K2 & N2 & D2); [done|done|done|].
  assert (E2' : forM cols (fun c => let* s := make_slice KInt n in put_col l (KInt, c) s) h1 = Ok (tt, h2)).
  { rewrite <- E2. apply forM_ext. intros c hh. by rewrite make_slice_lit. }
  erewrite bind_eq by exact E2'.
  assert (X2 : ext h h2).
  { eapply grow_ext; [exact X1|exact G2|]. lia. }
  assert (W2 : wfn h2 d n) by (by eapply ext_wfn).
  set (out := fun c => default nil_slice (mp h2 l !! (KInt, c))).
  assert (Hout : forall c, c ∈ cols -> mp h2 l !! (KInt, c) = Some (out c) /\
             fresh_col h1 h2 (out c) (replicate n (zero_of KInt))).
  { intros c Hin. destruct (N2 c Hin) as (s & Hs & Hf). unfold out. rewrite Hs. done. }
  assert (Hmp2 : mp h2 (r_maps (d_raw d)) = m) by (apply (ext_mp _ _ _ X2), W).
  destruct (hash_loop d n l cols out h2 W2) with (res := v) as (h3 & E3 & W3 & O3 & V3).
  { intros c Hin. rewrite Hmp2. auto. }
  { intros c Hin. destruct (Hout c Hin) as [Ho Hf]. split; [done|]. split.
    - eapply fresh_col_ok; [done|]. by apply forall_replicate.
    - destruct Hf as (_ & _ & Hf & _). by rewrite Hf, replicate_length. }
  { intros c c' k s Hnz Hin Hs. rewrite Hmp2 in Hs. destruct (Hout c Hin) as [_ [Hf Hf']].
    destruct (wfn_col _ _ _ _ _ W Hs) as (Hcs & Hln & _).
    destruct (col_ok_arr_cases _ _ _ Hcs) as [Hlt|(Hz1 & Hz2 & Hz3)].
    - rewrite Ea1 in Hf. lia.
    - lia. }
  { intros c1 c2 H1 H2 Hne12. destruct (Hout c1 H1) as [Ho1 _], (Hout c2 H2) as [Ho2 _].
    eapply (D2 (KInt, c1) (KInt, c2)); try done; try (apply elem_of_list_fmap; eauto).
    congruence. }
  { done. }
  rewrite (bind_eq _ _ _ _ _ E3). exists v, h3. split; [done|].
  assert (Hyoung : forall c (a : nat * nat), c ∈ cols -> a.1 < length (h_arr h) -> a.1 <> s_arr (out c)).
  { intros c a Hin Ha. destruct (Hout c Hin) as [_ [Hf _]]. rewrite Ea1 in Hf. lia. }
  assert (X3 : ext h h3).
  { eapply ext_wrt_young; [exact X2|exact W3|]. intros a Ha. apply O3. eauto. }
  (* the map of the result *)
  assert (Hmv : forall k : key, mp h3 l !! k =
     if decide (k.1 = KInt /\ k.2 ∈ cols) then Some (out k.2)
     else if decide (k.2 ∉ cols) then m !! k else None).
  { intros [k c]. rewrite (wrt_mp _ _ _ W3). simpl. case_decide as Hd.
    - destruct Hd as [-> Hin]. by apply Hout.
    - rewrite K2.
      2:{ intros (c' & [= -> ->] & Hc')%elem_of_list_fmap. naive_solver. }
      rewrite F1. fold m. destruct (m !! (k, c)) as [s|] eqn:Es.
      + case_decide as Hd2.
        * apply map_filter_lookup_Some. split; [done|]. simpl. apply (Hoth (k, c)); eauto.
        * apply map_filter_lookup_None. right. intros s' _ Hs'. simpl in Hs'.
          apply (Hoth (k, c)) in Hs'; eauto.
      + rewrite (map_filter_lookup_None_2 _ _ _ (or_introl Es)). by case_decide. }
  destruct Wv as [nv Wv].
  assert (Hnv : forall c, c ∈ cols -> col_ok h3 KInt (out c) /\ s_len (out c) = n).
  { intros c Hin. destruct (Hout c Hin) as [Ho Hf]. split.
    - eapply wrt_col_ok; [exact W3|]. eapply fresh_col_ok; [done|]. by apply forall_replicate.
    - destruct Hf as (_ & _ & Hf & _). by rewrite Hf, replicate_length. }
  assert (W3v : wfn h3 v n).
  { pose proof (wf_ilen _ _ _ W) as Hil. pose proof (wf_rng _ _ _ W) as Hrng.
    split.
    - fold l. rewrite (w_map _ _ W3). by rewrite (g_len _ _ _ G2).
    - intros x Hx. rewrite (w_str _ _ W3), (g_str _ _ _ G2). by apply (wf_str _ _ _ Wv).
    - intros x Hx. rewrite (w_shr _ _ W3), (g_shr _ _ _ G2). by apply (wf_shr _ _ _ Wv).
    - fold l. intros k s Hk. rewrite Hmv in Hk. case_decide as Hd.
      + injection Hk as <-. destruct Hd as [Hd1 Hd2]. rewrite Hd1. auto.
      + case_decide; [|done]. destruct (wfn_col _ _ _ _ _ W Hk) as (Hcs & Hln & _).
        split; [|done]. by eapply ext_col_ok.
    - by rewrite I1.
    - unfold inds. rewrite I1. apply Hrng.
    - rewrite V1. unfold inds, num_rows. rewrite I1. apply W.
    - destruct (wf_mask _ _ _ Wv) as [? ?]. split; [done|]. unfold marr.
      rewrite (w_mask _ _ W3), (g_mask _ _ _ G2). done.
    - apply Wv. }
  split; [by exists n|]. split; [done|].
  (* the table *)
  assert (Hst : ostr h3 (r_strs (d_raw v)) = t_strs (abs h1 v)).
  { rewrite (wrt_ostr _ _ _ W3), (grow_ostr _ _ _ _ G2). done. }
  unfold t_hash. unfold abs at 1. fold l. rewrite Hst, A1. f_equal.
  - unfold num_rows. by rewrite I1.
  - apply map_eq. intros k. rewrite lookup_fmap, Hmv.
    assert (Hinds : inds v = inds d) by (unfold inds; by rewrite I1). rewrite Hinds.
    case_decide as Hd; [destruct Hd as [Hd1 Hd2]|].
    + destruct k as [k c]. simpl in Hd1, Hd2. subst k. simpl.
      destruct (Hobj' c Hd2) as [s Hs].
      rewrite (hash_cols_lookup_in _ cols _ c (pick (inds d) (sl_vals h s)));
        [|done|rewrite lookup_fmap; fold m; by rewrite Hs].
      f_equal. rewrite <- pick_fmap.
      assert (forall ix, (forall i, i ∈ ix -> i ∈ inds d) ->
        pick ix (sl_vals h3 (out c)) = pick ix (spec_hash <$> sl_vals h s)) as HH.
      { induction ix as [|i ix IH]; intros Hix; [done|].
        rewrite !pick_cons, IH by set_solver.
        rewrite (V3 c s Hd2); [|by rewrite Hmp2|apply Hix; set_solver].
        assert (sl_vals h2 s = sl_vals h s) as ->.
        { destruct (wfn_col _ _ _ _ _ W Hs) as (Hcs & _). by eapply ext_sl_vals. }
        rewrite list_lookup_fmap. destruct (sl_vals h s !! i); [|done]. simpl. by rewrite hash_val_spec. }
      by apply HH.
    + rewrite hash_cols_lookup_out by (destruct (decide (k.1 = KInt)); naive_solver).
      case_decide as Hd2.
      * destruct (m !! k) as [s|] eqn:Es.
        -- simpl. symmetry. apply map_filter_lookup_Some. split; [|done].
           rewrite lookup_fmap. fold m. rewrite Es. simpl. f_equal. f_equal.
           destruct (wfn_col _ _ _ _ _ W Es) as (Hcs & _). symmetry. by eapply ext_sl_vals.
        -- simpl. symmetry. apply map_filter_lookup_None. left. rewrite lookup_fmap. fold m. by rewrite Es.
      * simpl. symmetry. apply map_filter_lookup_None. right. naive_solver.
  - simpl. apply set_eq. intros c. rewrite !elem_of_filter. rewrite !lookup_fmap. fold m.
    split; intros [[Hf1 Hf2] Hf3]; (split; [|done]); (split; [|done]);
      apply (Hoth (KObj, c)); try done; destruct (m !! (KObj, c)); eauto; by destruct Hf2.
  - change (t_enc (abs h1 v) = t_enc (abs h d)). by rewrite A1.
  - change (t_cpu (abs h1 v) = t_cpu (abs h d)). by rewrite A1.
Qed.
End frame.
