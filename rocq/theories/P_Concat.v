(** RowConcat. *)
From Verif Require Export Spec_Concat P_Hash.

Section frame.
Context {rt : GoRT}.

Lemma sl_wr_spec h k s i v : col_ok h k s -> i < s_len s -> kind_of v = k ->
  exists h', sl_wr s i v h = Ok (tt, h') /\ wrt h h' /\
    (forall a, a.1 <> s_arr s -> cell_val h' a = cell_val h a) /\
    sl_vals h' s = <[i := v]> (sl_vals h s).
Proof.
  intros Hs Hi Hk. destruct (col_ok_cell h k s i Hs Hi) as (w & Hw & Hkw & Ha).
  assert (Hlen : s_off s + i < length (arr h (s_arr s))) by (destruct Hs as (? & ? & _); lia).
  assert (C1 : forall b, cell_val (upd h (s_arr s, s_off s + i) v) b =
             if decide (b = (s_arr s, s_off s + i)) then Some v else cell_val h b).
  { intros b. by apply (upd_cell_val h (s_arr s, s_off s + i) v b). }
  assert (W1 : wrt h (upd h (s_arr s, s_off s + i) v)) by (eapply upd_wrt; [exact Hw|congruence]).
  eexists. split; [|split; [exact W1|split]].
  - unfold sl_wr. by rewrite decide_True.
  - intros a Hne. rewrite C1, decide_False; [done|]. intros ->. done.
  - apply list_eq. intros j. destruct (decide (j < s_len s)) as [Hj|Hj].
    + rewrite sl_vals_lookup by done.
      pose proof (C1 (s_arr s, s_off s + j)) as Cj. unfold cell_val in Cj. simpl in Cj. rewrite Cj.
      destruct (decide (j = i)) as [->|Hji].
      * rewrite decide_True by done. rewrite list_lookup_insert; [done|].
        by rewrite (col_ok_vals_length _ _ _ Hs).
      * rewrite decide_False by (intros [=]; lia). rewrite list_lookup_insert_ne by done.
        by rewrite sl_vals_lookup.
    + rewrite !lookup_ge_None_2; [done|..].
      * rewrite insert_length, (col_ok_vals_length _ _ _ Hs). lia.
      * rewrite (col_ok_vals_length _ _ _ (wrt_col_ok _ _ _ _ W1 Hs)). lia.
Qed.

Lemma copy_at_spec k src dst : forall ix off h, col_ok h k src -> col_ok h k dst ->
  (ix <> [] -> s_arr src <> s_arr dst) -> Forall (fun i => i < s_len src) ix ->
  off + length ix <= s_len dst ->
  exists h', copy_at dst src off ix h = Ok (tt, h') /\ wrt h h' /\
    (forall a, a.1 <> s_arr dst -> cell_val h' a = cell_val h a) /\
    sl_vals h' dst = take off (sl_vals h dst) ++ pick ix (sl_vals h src) ++
                     drop (off + length ix) (sl_vals h dst).
Proof.
  induction ix as [|i ix IH]; intros off h Hs Hd Hne F Hl.
  - exists h. split; [done|]. split; [done|]. split; [done|]. rewrite pick_nil. simpl.
    by rewrite Nat.add_0_r, take_drop.
  - apply Forall_cons in F as [Hi F]. simpl in Hl.
    destruct (col_ok_cell h k src i Hs Hi) as (v & Hv & Hk & _).
    assert (Hrd : sl_vals h src !! i = Some v) by (rewrite sl_vals_lookup by done; exact Hv).
    destruct (sl_wr_spec h k dst off v Hd) as (h1 & E1 & W1 & O1 & V1); [lia|done|].
    assert (Hs1 : sl_vals h1 src = sl_vals h src).
    { apply sl_vals_other. intros a Ha. apply O1. rewrite Ha. by apply Hne. }
    destruct (IH (S off) h1) as (h' & E2 & W2 & O2 & V2);
      [by eapply wrt_col_ok|by eapply wrt_col_ok|intros _; by apply Hne|done|lia|].
    exists h'. split; [|split; [by etrans|split]].
    + simpl. unfold bind at 1, sl_rd. rewrite Hrd. by rewrite (bind_eq _ _ _ _ _ E1).
    + intros a Ha. by rewrite O2, O1.
    + rewrite V2, Hs1, V1, pick_cons, Hrd.
      pose proof (col_ok_vals_length _ _ _ Hd) as Hlen.
      rewrite (take_S_r _ off v) by (rewrite list_lookup_insert; [done|lia]).
      rewrite take_insert by lia. rewrite drop_insert_gt by lia.
      rewrite <- app_assoc. simpl. do 3 f_equal. simpl. f_equal. f_equal. lia.
Qed.

(** One dataframe copied into the destination columns. *)
Lemma row_concat_cols_spec d n N cols : forall off h, wfn h d n ->
  Forall (fun p : key * slice => col_ok h p.1.1 p.2 /\ s_len p.2 = N /\
     (n <> 0 -> forall k s, mp h (r_maps (d_raw d)) !! k = Some s -> s_arr s <> s_arr p.2)) cols ->
  NoDup ((fun p : key * slice => s_arr p.2) <$> cols) ->
  off + num_rows d <= N ->
  exists b h', row_concat_cols d off cols h = Ok (b, h') /\ wrt h h' /\
    (forall a, a.1 ∉ (fun p : key * slice => s_arr p.2) <$> cols -> cell_val h' a = cell_val h a) /\
    (b = true <-> Forall (fun p : key * slice => is_Some (mp h (r_maps (d_raw d)) !! p.1)) cols) /\
    (b = true -> forall k dst, (k, dst) ∈ cols -> exists col, t_cols (abs h d) !! k = Some col /\
       sl_vals h' dst = take off (sl_vals h dst) ++ col ++ drop (off + num_rows d) (sl_vals h dst)).
Proof.
  induction cols as [|[k dst] cols IH]; intros off h W HF Hnd Hoff.
  - exists true, h. split; [done|]. split; [done|]. split; [done|].
    split; [split; [by constructor|done]|]. intros _ k dst Hk. by apply elem_of_nil in Hk.
  - apply Forall_cons in HF as [(Hd & Hl & Hap) HF]. simpl in Hd, Hl, Hap.
    apply NoDup_cons in Hnd as [Hnin Hnd]. simpl in Hnin. cbn [row_concat_cols].
    unfold bind at 1, get_mp.
    destruct (mp h (r_maps (d_raw d)) !! k) as [src|] eqn:Es.
    2:{ exists false, h. split; [done|]. split; [done|]. split; [done|]. split; [|done].
        split; [done|]. intros [Hx _]%Forall_cons. simpl in Hx. rewrite Es in Hx. by destruct Hx. }
    destruct (wfn_col _ _ _ _ _ W Es) as (Hcs & Hls & Hrg).
    pose proof (wf_rng _ _ _ W) as HR.
    destruct (copy_at_spec k.1 src dst (inds d) off h Hcs Hd) as (h1 & E1 & W1 & O1 & V1).
    { intros Hix. eapply Hap; [|exact Es]. intros ->. destruct (inds d); [done|].
      apply Forall_cons_1 in HR as [? _]. lia. }
    { eapply Forall_impl; [exact HR|]. simpl. intros. lia. }
    { rewrite (wfn_inds_length _ _ _ W). lia. }
    rewrite (bind_eq _ _ _ _ _ E1).
    assert (Hotherd : forall s', s_arr s' <> s_arr dst -> sl_vals h1 s' = sl_vals h s').
    { intros s' Hs'. apply sl_vals_other. intros a Ha. apply O1. by rewrite Ha. }
    destruct (IH off h1) as (b & h2 & E2 & W2 & O2 & B2 & V2); [by eapply wrt_wfn| |done|done|].
    { eapply Forall_impl; [exact HF|]. intros [k' s'] (Ha & Hb & Hc). simpl in *.
      split; [by eapply wrt_col_ok|]. split; [done|]. intros Hz k2 s2. rewrite (wrt_mp _ _ _ W1). eauto. }
    exists b, h2. split; [done|]. split; [by etrans|]. split; [|split].
    + intros a Ha. rewrite O2 by set_solver. apply O1. set_solver.
    + rewrite B2. rewrite (wrt_mp _ _ _ W1). split.
      * intros HH. constructor; [simpl; by rewrite Es|done].
      * by intros [_ HH]%Forall_cons.
    + intros Hb k' dst' Hin. apply elem_of_cons in Hin as [[= -> ->]|Hin].
      * eexists. split; [rewrite abs_cols_lookup, Es; done|].
        rewrite (sl_vals_other h1 h2).
        2:{ intros a Ha. apply O2. by rewrite Ha. }
        rewrite V1, (wfn_inds_length _ _ _ W). done.
      * destruct (V2 Hb k' dst' Hin) as (col & Hcol & Hv).
        assert (s_arr dst' <> s_arr dst) as Hne.
        { intros E. apply Hnin. rewrite <- E. apply elem_of_list_fmap. by exists (k', dst'). }
        rewrite (Hotherd dst' Hne) in Hv. exists col. split; [|done].
        rewrite abs_cols_lookup, (wrt_mp _ _ _ W1) in Hcol. rewrite abs_cols_lookup.
        destruct (mp h (r_maps (d_raw d)) !! k') as [s'|] eqn:Es'; [|done]. simpl in *.
        rewrite <- Hcol. f_equal. f_equal. destruct (wfn_col _ _ _ _ _ W Es') as (_ & Hls' & _).
        destruct (decide (n = 0)) as [->|Hz].
        -- rewrite !sl_vals_len0; done.
        -- symmetry. apply Hotherd. eauto.
Qed.

(** The string header accumulated so far. *)
Lemma and_step st xs h : valid_str h st ->
  exists st' h', (match st with
                  | None => let* x := new_str xs in ret (Some x)
                  | Some _ => str_add st xs
                  end) h = Ok (st', h') /\ only_str h h' /\ valid_str h' st' /\
    ostr h' st' = ostr h st ∪ xs /\
    (forall x, st' = Some x -> st = Some x \/ length (h_str h) <= x) /\
    (forall x, x < length (h_str h) -> st <> Some x -> str h' x = str h x).
Proof.
  intros Hv. destruct st as [x|].
  - unfold str_add. case_decide as Hx.
    + exists (Some x), h. split; [done|]. split; [by split|]. split; [done|]. split; [set_solver|].
      split; [by left|done].
    + eexists _, _. split; [reflexivity|]. split; [split; simpl; rewrite ?insert_length; done|].
      specialize (Hv x eq_refl).
      split; [intros y [= <-]; simpl; by rewrite insert_length|].
      split; [simpl; unfold str, set_str; simpl; by rewrite list_lookup_insert|].
      split; [by left|]. intros y Hy Hne. unfold str, set_str. simpl.
      rewrite list_lookup_insert_ne by congruence. done.
  - eexists _, _. split; [reflexivity|]. split; [split; simpl; rewrite ?app_length; try done; lia|].
    split; [intros y [= <-]; simpl; rewrite app_length; simpl; lia|].
    split; [simpl; unfold str at 1; simpl; rewrite lookup_app_r, Nat.sub_diag by done; simpl; set_solver|].
    split; [intros y [= <-]; right; done|].
    intros y Hy _. unfold str. simpl. by rewrite lookup_app_l.
Qed.

(** The state while the dataframes are copied: [M0] are the destination
    columns, [ts] the tables copied so far. *)
Record rc_inv (h0 : heap) (l N : nat) (M0 : gmap key slice) (ts : list table) (st : option nat) (h : heap) : Prop := {
  rc_ext : ext h0 h;
  rc_mp : mp h l = M0;
  rc_col : forall k s, M0 !! k = Some s -> col_ok h k.1 s /\ s_len s = N /\ length (h_arr h0) <= s_arr s;
  rc_dis : forall k1 k2 s1 s2, M0 !! k1 = Some s1 -> M0 !! k2 = Some s2 -> k1 <> k2 -> s_arr s1 <> s_arr s2;
  rc_val : forall k s, M0 !! k = Some s -> take (sum_list (t_rows <$> ts)) (sl_vals h s) = stack_col ts k;
  rc_str : valid_str h st;
  rc_new : forall x, st = Some x -> length (h_str h0) <= x;
  rc_set : ostr h st = ⋃ (t_strs <$> ts) }.

Lemma stack_col_app ts t k : stack_col (ts ++ [t]) k = stack_col ts k ++ default [] (t_cols t !! k).
Proof. unfold stack_col. rewrite fmap_app, concat_app. simpl. by rewrite app_nil_r. Qed.

Lemma union_list_snoc {A C} `{SemiSet A C} `{!LeibnizEquiv C} (l : list C) x : ⋃ (l ++ [x]) = ⋃ l ∪ x.
Proof. induction l as [|y l IH]; simpl; [set_solver|]. rewrite IH. set_solver. Qed.

Lemma sum_rows_snoc (l : list table) t :
  sum_list (t_rows <$> l ++ [t]) = sum_list (t_rows <$> l) + t_rows t.
Proof. induction l as [|y l IH]; simpl in *; [lia|]. unfold fmap in IH. simpl in IH. rewrite IH. lia. Qed.

Lemma map_arrs_nodup (m : gmap key slice) :
  (forall k1 k2 s1 s2, m !! k1 = Some s1 -> m !! k2 = Some s2 -> k1 <> k2 -> s_arr s1 <> s_arr s2) ->
  NoDup ((fun p : key * slice => s_arr p.2) <$> map_to_list m).
Proof.
  intros H. pose proof (NoDup_fst_map_to_list m) as Hf.
  assert (forall p q, p ∈ map_to_list m -> q ∈ map_to_list m -> s_arr p.2 = s_arr q.2 -> p.1 = q.1) as Hi.
  { intros [k1 s1] [k2 s2] H1%elem_of_map_to_list H2%elem_of_map_to_list E. simpl in *.
    destruct (decide (k1 = k2)) as [|Hne]; [done|]. exfalso. by apply (H k1 k2 s1 s2 H1 H2 Hne). }
  clear H. revert Hf Hi. generalize (map_to_list m) as l.
  induction l as [|p l IH]; intros Hf Hi; [constructor|]. simpl in *.
  apply NoDup_cons in Hf as [Hp Hf]. apply NoDup_cons. split.
  - intros (q & E & Hq)%elem_of_list_fmap. apply Hp. apply elem_of_list_fmap. exists q.
    split; [|done]. apply Hi; [set_solver..|done].
  - apply IH; [done|]. intros. apply Hi; set_solver.
Qed.

Lemma row_concat_loop_spec h0 l N M0 dfs : forall ts st h,
  rc_inv h0 l N M0 ts st h -> Forall (wf h0) dfs ->
  sum_list (t_rows <$> ts) + sum_list (num_rows <$> dfs) = N ->
  exists o h', row_concat_loop l st (sum_list (t_rows <$> ts)) dfs h = Ok (o, h') /\ ext h0 h' /\
    match o with
    | Some st' => Forall (fun d => dom M0 ⊆ dom (t_cols (abs h0 d))) dfs /\
        rc_inv h0 l N M0 (ts ++ (abs h0 <$> dfs)) st' h' /\
        h_mask h' = h_mask h /\ h_map h' = h_map h /\ h_shr h' = h_shr h /\ (dfs <> [] -> is_Some st')
    | None => Exists (fun d => ~ dom M0 ⊆ dom (t_cols (abs h0 d))) dfs
    end.
Proof.
  induction dfs as [|d dfs IH]; intros ts st h I HW HN.
  - exists (Some st), h. split; [done|]. split; [apply I|]. split; [constructor|].
    simpl. rewrite app_nil_r. done.
  - apply Forall_cons in HW as [[n W0] HW]. simpl. unfold bind at 1, get_ostr.
    destruct (and_step st (ostr h (r_strs (d_raw d))) h (rc_str _ _ _ _ _ _ _ I)) as
      (st1 & h1 & E1 & OS & V1 & S1 & N1 & K1).
    rewrite (bind_eq _ _ _ _ _ E1).
    assert (X1 : ext h0 h1).
    { destruct (rc_ext _ _ _ _ _ _ _ I) as [Y1 Y2 Y3 Y4 Y5]. destruct OS as [O1 O2 O3 O4 O5].
      split; rewrite ?O1, ?O3, ?O4; try done.
      - destruct Y3 as [tl Y3]. exists (drop (length (h_str h0)) (h_str h1)).
        rewrite <- (take_drop (length (h_str h0)) (h_str h1)) at 1. f_equal.
        apply list_eq. intros i. destruct (decide (i < length (h_str h0))) as [Hi|Hi].
        + rewrite lookup_take by done.
          assert (Hi2 : i < length (h_str h)) by (rewrite Y3, app_length; lia).
          assert (Hi4 : i < length (h_str h1)) by lia.
          destruct (lookup_lt_is_Some_2 _ _ Hi4) as [x Ex].
          destruct (lookup_lt_is_Some_2 _ _ Hi2) as [y Ey].
          assert (str h1 i = str h i) as Ea.
          { apply K1; [done|]. intros E. apply (rc_new _ _ _ _ _ _ _ I) in E. lia. }
          unfold str in Ea. rewrite Ex, Ey in Ea. simpl in Ea. subst y. rewrite Ex.
          rewrite Y3, lookup_app_l in Ey by done. done.
        + rewrite lookup_take_ge by lia. symmetry. apply lookup_ge_None_2. lia.
      - intros i. unfold marr. rewrite O2. apply Y5. }
    assert (Wd : wfn h1 d n) by (by eapply ext_wfn).
    unfold bind at 1, get_mp.
    assert (M1 : mp h1 l = M0). { rewrite <- (rc_mp _ _ _ _ _ _ _ I). unfold mp. by rewrite (ot_map _ _ OS). }
    assert (Hsl : forall s, sl_vals h1 s = sl_vals h s).
    { intros s. unfold sl_vals, arr. by rewrite (ot_arr _ _ OS). }
    rewrite M1. change (sum_list (num_rows <$> d :: dfs)) with (num_rows d + sum_list (num_rows <$> dfs)) in HN.
    set (off := sum_list (t_rows <$> ts)) in *.
    destruct (row_concat_cols_spec d n N (map_to_list M0) off h1 Wd) as
      (b & h2 & E2 & W2 & O2 & B2 & V2).
    { apply Forall_forall. intros [k s] Hks%elem_of_map_to_list. simpl.
      destruct (rc_col _ _ _ _ _ _ _ I k s Hks) as (Hc & Hl & Ha).
      split; [|split; [done|]].
      - destruct Hc as (? & ? & ?). unfold col_ok, arr. rewrite (ot_arr _ _ OS). done.
      - intros Hz k' s' Hs'. rewrite (ext_mp _ _ _ X1) in Hs' by apply W0.
        destruct (wfn_col _ _ _ _ _ W0 Hs') as (Hcs & Hls & _).
        destruct (col_ok_arr_cases _ _ _ Hcs) as [?|(? & _)]; lia. }
    { apply map_arrs_nodup. apply (rc_dis _ _ _ _ _ _ _ I). }
    { lia. }
    rewrite (bind_eq _ _ _ _ _ E2).
    assert (X2 : ext h0 h2).
    { eapply ext_wrt_young; [exact X1|exact W2|]. intros a Ha. apply O2.
      intros ([k s] & Ea & Hks%elem_of_map_to_list)%elem_of_list_fmap. simpl in Ea.
      apply (rc_col _ _ _ _ _ _ _ I) in Hks. lia. }
    assert (Hb : b = true <-> dom M0 ⊆ dom (t_cols (abs h0 d))).
    { rewrite B2, Forall_forall. rewrite (ext_mp _ _ _ X1) by apply W0. split.
      - intros H k [s Hk]%elem_of_dom. apply elem_of_dom. rewrite abs_cols_lookup.
        destruct (H (k, s)) as [s' Hs']; [by apply elem_of_map_to_list|]. simpl in Hs'. rewrite Hs'. eauto.
      - intros H [k s] Hks%elem_of_map_to_list. simpl. assert (Hk : k ∈ dom M0) by (apply elem_of_dom; eauto).
        apply H, elem_of_dom in Hk. rewrite abs_cols_lookup in Hk.
        destruct (mp h0 (r_maps (d_raw d)) !! k); [eauto|by destruct Hk]. }
    destruct b.
    2:{ exists None, h2. split; [done|]. split; [done|]. left. rewrite <- Hb. done. }
    assert (Ad : abs h1 d = abs h0 d) by (apply ext_abs; [done|by exists n]).
    assert (I2 : rc_inv h0 l N M0 (ts ++ [abs h0 d]) st1 h2).
    { split.
      - done.
      - by rewrite (wrt_mp _ _ _ W2).
      - intros k s Hk. destruct (rc_col _ _ _ _ _ _ _ I k s Hk) as (Hc & Hl & Ha).
        split; [|done]. eapply wrt_col_ok; [exact W2|].
        unfold col_ok, arr. rewrite (ot_arr _ _ OS). done.
      - apply (rc_dis _ _ _ _ _ _ _ I).
      - intros k s Hk. destruct (V2 eq_refl k s) as (col & Hcol & Hv); [by apply elem_of_map_to_list|].
        rewrite Ad in Hcol. rewrite stack_col_app, Hcol. simpl.
        rewrite sum_rows_snoc.
        change (sum_list (t_rows <$> ts)) with off. change (t_rows (abs h0 d)) with (num_rows d).
        rewrite Hv, Hsl.
        destruct (rc_col _ _ _ _ _ _ _ I k s Hk) as (Hc & Hl & Ha).
        pose proof (col_ok_vals_length _ _ _ Hc) as Hlen.
        assert (Hlc : length col = num_rows d).
        { destruct (abs_ok h0 d (ex_intro _ n W0) k col Hcol) as [-> _]. done. }
        rewrite take_app_ge; rewrite take_length_le by lia; [|lia].
        pose proof (rc_val _ _ _ _ _ _ _ I k s Hk) as Hval.
        change (sum_list (t_rows <$> ts)) with off in Hval. rewrite Hval. f_equal.
        replace (off + num_rows d - off) with (length col) by lia. apply take_app.
      - intros x Hx. rewrite (w_str _ _ W2). by apply V1.
      - intros x Hx. destruct (N1 x Hx) as [Hst|Hge]; [by apply (rc_new _ _ _ _ _ _ _ I)|].
        destruct (rc_ext _ _ _ _ _ _ _ I) as [_ _ [tl Hp] _ _]. rewrite Hp, app_length in Hge. lia.
      - rewrite (wrt_ostr _ _ _ W2), S1, (rc_set _ _ _ _ _ _ _ I). rewrite fmap_app. simpl.
        rewrite union_list_snoc. f_equal. simpl. apply ext_ostr; [apply I|]. apply W0. }
    destruct (IH (ts ++ [abs h0 d]) st1 h2 I2 HW) as (o & h3 & E3 & X3 & H3).
    { rewrite sum_rows_snoc. change (t_rows (abs h0 d)) with (num_rows d).
      change (sum_list (t_rows <$> ts)) with off. lia. }
    assert (Hoff : sum_list (t_rows <$> ts ++ [abs h0 d]) = off + num_rows d).
    { by rewrite sum_rows_snoc. }
    rewrite Hoff in E3. exists o, h3. split; [done|]. split; [done|].
    destruct o as [st'|].
    + destruct H3 as (F3 & I3 & M3 & P3 & R3 & N3). split; [constructor; [by apply Hb|done]|].
      rewrite <- app_assoc in I3. split; [done|].
      rewrite M3, P3, R3, (w_mask _ _ W2), (w_map _ _ W2), (w_shr _ _ W2), (ot_mask _ _ OS), (ot_map _ _ OS), (ot_shr _ _ OS).
      do 3 (split; [done|]). intros _. destruct dfs; [|by apply N3].
      simpl in E3. injection E3 as <- <-. destruct st; simpl in E1.
      * unfold str_add in E1. case_decide; injection E1 as <- <-; eauto.
      * injection E1 as <- <-. eauto.
    + by right.
Qed.

Lemma row_concat_spec h d0 rest : Forall (wf h) (d0 :: rest) ->
  exists o h', row_concat (d0 :: rest) h = Ok (o, h') /\ ext h h' /\
    match o with
    | Some v => Forall (fun d => has_cols (abs h d0) (abs h d)) (d0 :: rest) /\ wf h' v /\
        abs h' v = t_stack (abs h d0) (abs h <$> d0 :: rest) /\
        r_maps (d_raw v) = length (h_map h) /\
        (forall x, r_strs (d_raw v) = Some x -> length (h_str h) <= x) /\
        r_shared (d_raw v) = None /\ r_sharedMaps (d_raw v) = false /\ d_viewed v = false /\
        (forall k, young_col h h' v k) /\
        (forall k1 k2 s1 s2, k1 <> k2 -> mp h' (r_maps (d_raw v)) !! k1 = Some s1 ->
          mp h' (r_maps (d_raw v)) !! k2 = Some s2 -> s_arr s1 <> s_arr s2)
    | None => Exists (fun d => ~ has_cols (abs h d0) (abs h d)) (d0 :: rest)
    end.
Proof.
  intros HW. unfold row_concat. set (dfs := d0 :: rest) in *.
  set (N := sum_list (num_rows <$> dfs)).
  assert (Hw0 : wf h d0) by (by apply Forall_cons in HW as [? _]). destruct Hw0 as [n0 W0].
  destruct (empty_df_spec (Z.of_nat N) (r_cpu (d_raw d0)) h) as
    (e & h1 & E1 & X1 & A1 & A2 & A3 & A4 & A5 & A6 & A7 & A8 & A9); [lia|].
  assert (Hv0 : d_viewed e = false).
  { unfold empty_df in E1. unfold bind at 1 in E1. simpl in E1. destruct (decide (0 < Z.of_nat N)%Z).
    - unfold bind, make_mask, bind in E1. simpl in E1. by injection E1 as <- _.
    - by injection E1 as <- _. }
  rewrite (bind_eq _ _ _ _ _ E1). rewrite Nat2Z.id in *.
  rewrite (bind_eq _ _ h1 (mp h1 (r_maps (d_raw d0))) h1) by done. cbv zeta.
  pose proof (wf_map _ _ _ W0) as Hmap.
  rewrite (ext_mp _ _ _ X1) by done. set (m := mp h (r_maps (d_raw d0))) in *.
  set (l := r_maps (d_raw e)).
  destruct (fill_spec l fst (fun p : key * slice => ret (replicate N (zero_of p.1.1)))
     (fun p : key * slice => replicate N (zero_of p.1.1)) (map_to_list m) h1)
    as (h2 & E2 & G2 & O2 & F2 & D2).
  { unfold l. lia. } { done. } { by intros [k s] [k' s'] _ _ E; simpl in *; subst. }
  assert (E2' : forM (map_to_list m) (fun p => let* s := make_slice p.1.1 N in put_col l p.1 s) h1 = Ok (tt, h2)).
  { rewrite <- E2. apply forM_ext. intros c hh. by rewrite make_slice_lit. }
  rewrite (bind_eq _ _ _ _ _ E2').
  assert (X2 : ext h h2) by (eapply grow_ext; [exact X1|exact G2|unfold l; lia]).
  assert (Hdom : dom (mp h2 l) = dom m).
  { apply set_eq. intros k. rewrite !elem_of_dom. destruct (m !! k) as [s|] eqn:Ek.
    - destruct (F2 (k, s)) as (s' & Hs' & _); [by apply elem_of_map_to_list|]. simpl in Hs'.
      rewrite Hs'. split; eauto.
    - rewrite O2.
      + unfold l. rewrite A5, A6. rewrite lookup_empty. done.
      + intros ([k' s] & -> & Hin%elem_of_map_to_list)%elem_of_list_fmap. simpl in Ek. congruence. }
  assert (Hin : forall k s, mp h2 l !! k = Some s -> k ∈ fst <$> map_to_list m /\
            fresh_col h1 h2 s (replicate N (zero_of k.1))).
  { intros k s Hs. assert (k ∈ dom m) as [s0 Hk]%elem_of_dom by (rewrite <- Hdom; apply elem_of_dom; eauto).
    destruct (F2 (k, s0)) as (s' & Hs' & Hf); [by apply elem_of_map_to_list|]. simpl in *.
    rewrite Hs in Hs'. injection Hs' as <-. split; [|done].
    apply elem_of_list_fmap. exists (k, s0). split; [done|]. by apply elem_of_map_to_list. }
  assert (I0 : rc_inv h l N (mp h2 l) [] None h2).
  { split; try done.
    - intros k s Hs. destruct (Hin k s Hs) as [_ Hf]. split; [|split].
      + eapply fresh_col_ok; [exact Hf|]. apply forall_replicate. by destruct k as [[] ?].
      + destruct Hf as (_ & _ & Hf & _). by rewrite Hf, replicate_length.
      + destruct Hf as (Hf & _). rewrite A1 in Hf. lia.
    - intros k1 k2 s1 s2 H1 H2 Hne. destruct (Hin _ _ H1) as [Hk1 _], (Hin _ _ H2) as [Hk2 _].
      by apply (D2 k1 k2 s1 s2 Hk1 Hk2 Hne). }
  destruct (row_concat_loop_spec h l N (mp h2 l) dfs [] None h2 I0 HW) as (o & h3 & E3 & X3 & H3); [done|].
  rewrite (bind_eq (row_concat_loop l None 0 dfs) _ _ _ _ E3).
  assert (Hd0 : forall d, dom (mp h2 l) ⊆ dom (t_cols (abs h d)) <-> has_cols (abs h d0) (abs h d)).
  { intros d. unfold has_cols. rewrite Hdom. change (t_cols (abs h d0)) with ((fun s => pick (inds d0) (sl_vals h s)) <$> m). by rewrite dom_fmap_L. }
  destruct o as [st|].
  2:{ exists None, h3. split; [done|]. split; [done|]. eapply Exists_impl; [exact H3|].
      simpl. intros d Hd. by rewrite <- Hd0. }
  destruct H3 as (F3 & I3 & M3 & P3 & R3 & N3). rewrite app_nil_l in I3.
  eexists _, h3. split; [reflexivity|]. split; [done|].
  split; [eapply Forall_impl; [exact F3|]; intros d; by rewrite Hd0|].
  assert (Hm3 : mp h3 l = mp h2 l) by apply I3.
  assert (Hrows : sum_list (t_rows <$> (abs h <$> dfs)) = N).
  { unfold N. f_equal. rewrite <- list_fmap_compose. done. }
  split; [|split; [|split; [exact A5|split; [|split; [done|split; [done|split; [|split]]]]]]].
  - exists N. split; simpl.
    + rewrite P3, (g_len _ _ _ G2). lia.
    + apply I3.
    + done.
    + intros k s Hs. fold l in Hs. rewrite Hm3 in Hs.
      destruct (rc_col _ _ _ _ _ _ _ I3 k s Hs) as (? & ? & _). done.
    + rewrite A7. simpl. done.
    + unfold inds; simpl. rewrite A7. unfold ilist; simpl. rewrite take_ge by done.
      apply Forall_forall. intros i Hi%elem_of_seq. lia.
    + intros _. unfold inds, num_rows; simpl. rewrite A7. unfold ilist; simpl.
      rewrite take_ge by done. by rewrite seq_length.
    + assert (mask_ok h3 (d_mask e)) as [??]; [|done].
      destruct A8. split; [done|]. unfold marr. rewrite M3, (g_mask _ _ _ G2). done.
    + unfold num_rows; simpl. rewrite A7, A9. simpl. by rewrite seq_length.
  - unfold t_stack, abs at 1. cbn [d_raw r_maps r_strs r_enc r_cpu set_raw]. f_equal.
    + unfold num_rows. simpl. rewrite A7. simpl. rewrite seq_length. done.
    + fold l. rewrite Hm3. apply map_eq. intros k. rewrite lookup_fmap, map_lookup_imap.
      rewrite abs_cols_lookup. fold m.
      destruct (mp h2 l !! k) as [s|] eqn:Ek.
      * assert (k ∈ dom m) as [s0 Hk]%elem_of_dom by (rewrite <- Hdom; apply elem_of_dom; eauto).
        rewrite Hk. match goal with |- ?L = _ => change (L = Some (stack_col (abs h <$> dfs) k)) end.
        pose proof (rc_val _ _ _ _ _ _ _ I3 k s Ek) as Hv. rewrite Hrows in Hv.
        destruct (rc_col _ _ _ _ _ _ _ I3 k s Ek) as (Hc & Hl & _).
        pose proof (col_ok_vals_length _ _ _ Hc) as Hlen.
        rewrite take_ge in Hv by lia. rewrite <- Hv. simpl. f_equal.
        unfold inds; simpl. rewrite A7. unfold ilist; simpl. rewrite take_ge by done.
        rewrite <- Hl, <- Hlen. by rewrite pick_seq_all.
      * destruct (m !! k) as [s0|] eqn:Hk; [|done].
        assert (k ∈ dom (mp h2 l)) as [? ?]%elem_of_dom; [|congruence].
        rewrite Hdom. apply elem_of_dom. eauto.
    + apply I3.
  - simpl. apply I3.
  - exact Hv0.
  - intros k s Hs. simpl in Hs. fold l in Hs. rewrite Hm3 in Hs.
    by destruct (rc_col _ _ _ _ _ _ _ I3 k s Hs) as (_ & _ & ?).
  - simpl. fold l. rewrite Hm3. intros k1 k2 s1 s2 Hne H1 H2.
    by apply (rc_dis _ _ _ _ _ _ _ I3 k1 k2 s1 s2 H1 H2 Hne).
Qed.

End frame.
