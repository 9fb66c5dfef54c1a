(** Row views: IndexView, SliceView, MaskView, ReverseView, Split*. *)
From Verif Require Export P_Maps.

Section frame.
Context {rt : GoRT}.

Lemma ext_set_mp h h1 l m : ext h h1 -> length (h_map h) <= l -> ext h (set_mp h1 l m).
Proof.
  intros [E1 E2 E3 E4 E5] Hl. split; try done. simpl.
  destruct E2 as [k ->]. rewrite insert_app_r_alt by done. by eexists.
Qed.
Lemma ext_set_arr h h1 l a : ext h h1 -> length (h_arr h) <= l -> ext h (set_arr h1 l a).
Proof.
  intros [E1 E2 E3 E4 E5] Hl. split; try done. simpl.
  destruct E1 as [k ->]. rewrite insert_app_r_alt by done. by eexists.
Qed.

(** ** View *)
Lemma abs_view h d : abs h (view d) = abs h d.
Proof. done. Qed.
Lemma wfn_view h d n : wfn h d n -> wfn h (view d) n.
Proof. intros []. split; done. Qed.
Lemma wf_view h d : wf h d -> wf h (view d).
Proof. intros [n W]. exists n. by apply wfn_view. Qed.

(** ** IndexView *)
Lemma res_mapM_idx (ix : list nat) l :
  match res_mapM (idx ix) l with
  | Ok is => Forall (fun i => (0 <= i < Z.of_nat (length ix))%Z) l /\
             is = pick (Z.to_nat <$> l) ix /\ length is = length l
  | Panic => Exists (fun i => (i < 0 \/ Z.of_nat (length ix) <= i)%Z) l
  end.
Proof.
  induction l as [|i l IH]; simpl; [done|].
  destruct (idx ix i) as [a|] eqn:E; simpl.
  - destruct (res_mapM (idx ix) l) as [is|]; simpl.
    + destruct IH as (IH1 & IH2 & IH3). apply idx_ok in E as [Hi Ha].
      split; [|split; [|by rewrite <- IH3]].
      * constructor; [|done]. apply lookup_lt_Some in Ha. lia.
      * rewrite (pick_cons (Z.to_nat i)), Ha. by subst is.
    + by right.
  - left. by apply idx_panic.
Qed.

Lemma pick_Forall_nat (P : nat -> Prop) ix l : Forall P l -> Forall P (pick ix l).
Proof. apply pick_Forall. Qed.

Lemma mask_append_spec s n h : mask_ok h s -> exists s' h', mask_append s n h = Ok (s', h') /\
  ext h h' /\ h_arr h' = h_arr h /\ h_map h' = h_map h /\ h_str h' = h_str h /\
  h_shr h' = h_shr h /\ mask_ok h' s' /\ s_len s' = s_len s + n.
Proof.
  intros [H1 H2]. unfold mask_append. destruct (decide (s_len s + n <= s_cap s)) as [Hc|Hc].
  - eexists _, _. split; [reflexivity|].
    set (a := marr h (s_arr s)) in *. set (p := s_off s + s_len s).
    assert (length (take p a ++ replicate n false ++ drop (p + n) a) = length a) as Hlen.
    { rewrite !app_length, take_length, replicate_length, drop_length. unfold p. lia. }
    assert (forall l, length (marr h l) = length (marr (set_marr h (s_arr s)
       (take p a ++ replicate n false ++ drop (p + n) a)) l)) as Hm.
    { intros l. unfold marr. simpl. destruct (decide (l = s_arr s)) as [->|Hl].
      - destruct (decide (s_arr s < length (h_mask h))) as [Hs|Hs].
        + rewrite list_lookup_insert by done. simpl. rewrite Hlen. done.
        + rewrite list_insert_ge by lia. done.
      - by rewrite list_lookup_insert_ne by done. }
    split; [split; try done; intros l; by rewrite <- Hm|].
    do 4 (split; [done|]). split; [|done]. split; simpl; [lia|].
    rewrite <- Hm. simpl. fold a. lia.
  - eexists _, _. split; [reflexivity|]. simpl.
    split; [split; try done; intros l; unfold marr; simpl|].
    { destruct (decide (l < length (h_mask h))) as [Hl|Hl].
      - by rewrite lookup_app_l.
      - rewrite lookup_ge_None_2 by lia. simpl. lia. }
    do 4 (split; [done|]). split; [|done]. unfold mask_ok. simpl.
    pose proof (rt_grow_ok (s_cap s) (s_len s + n)) as Hg.
    split; [lia|]. unfold marr. simpl. rewrite lookup_app_r, Nat.sub_diag by done. simpl.
    rewrite app_length, replicate_length. unfold msl_vals. rewrite take_length, drop_length. lia.
Qed.

(** Changing the index list of a view. *)
Lemma abs_set_ind h d x b s : abs h (set_viewed (set_mask (set_ind (view d) x) s) b) =
  Table (ilen x) ((fun s => pick (ilist x) (sl_vals h s)) <$> mp h (r_maps (d_raw d)))
        (ostr h (r_strs (d_raw d))) (r_enc (d_raw d)) (r_cpu (d_raw d)).
Proof. done. Qed.

Lemma abs_select h d n js : wfn h d n ->
  Table (length js) ((fun s => pick (pick js (inds d)) (sl_vals h s)) <$>
                     mp h (r_maps (d_raw d)))
        (ostr h (r_strs (d_raw d))) (r_enc (d_raw d)) (r_cpu (d_raw d))
  = t_select js (abs h d).
Proof.
  intros W. unfold t_select, abs. simpl. f_equal.
  rewrite <- map_fmap_compose. apply map_fmap_ext. intros k s Hk. simpl.
  destruct (wfn_col _ _ _ _ _ W Hk) as (_ & _ & Hr). by rewrite pick_pick.
Qed.

Lemma index_view_spec h d l : wf h d ->
  match index_view d l h with
  | Ok (v, h') =>
      Forall (fun i => (0 <= i < Z.of_nat (num_rows d))%Z) l /\
      abs h' v = t_select (Z.to_nat <$> l) (abs h d) /\
      wf h' v /\ ext h h' /\ h_arr h' = h_arr h /\ d_viewed v = true /\
      d_ind v = mk_ind (pick (Z.to_nat <$> l) (inds d)) /\
      d_raw v = d_raw (view d)
  | Panic => Exists (fun i => (i < 0 \/ Z.of_nat (num_rows d) <= i)%Z) l
  end.
Proof.
  intros [n W]. unfold index_view.
  pose proof (res_mapM_idx (inds d) l) as Hm.
  rewrite (wfn_inds_length _ _ _ W) in Hm.
  destruct (res_mapM (idx (inds d)) l) as [is|] eqn:E; [|unfold bind, lift; done].
  destruct Hm as (Hrng & His & Hlen).
  rewrite (bind_eq (lift (Ok is)) _ h is h) by done.
  assert (exists s' h', (if decide (num_rows d < length l)
                then mask_append (d_mask d) (length l - num_rows d)
                else ret (d_mask d)) h = Ok (s', h') /\ ext h h' /\ h_arr h' = h_arr h /\
             h_map h' = h_map h /\ h_str h' = h_str h /\ h_shr h' = h_shr h /\
             mask_ok h' s' /\ length l <= s_len s') as (s' & h' & E' & X1 & X2 & X3 & X4 & X5 & X6 & X7).
  { destruct (decide (num_rows d < length l)) as [Hl|Hl].
    - destruct (mask_append_spec (d_mask d) (length l - num_rows d) h) as
        (s' & h' & A & B & C & D & F & G & I & J); [apply W|].
      exists s', h'. repeat (split; [done|]). pose proof (wf_mlen _ _ _ W). lia.
    - exists (d_mask d), h. repeat (split; [done|]). split; [apply W|].
      pose proof (wf_mlen _ _ _ W). lia. }
  rewrite (bind_eq _ _ _ _ _ E'). unfold ret.
  split; [done|].
  assert (wfn h' d n) as W' by by eapply ext_wfn.
  split.
  { rewrite abs_set_ind. rewrite <- (ext_abs _ _ _ X1) by by exists n.
    rewrite <- (abs_select _ _ _ _ W'). unfold mk_ind. simpl. unfold ilist; simpl.
    rewrite fmap_length, Hlen. f_equal. apply map_fmap_ext. intros k s Hk.
    by rewrite firstn_all2, His by lia. }
  split; [|split; [done|split; [done|split; [done|split; [|done]]]]].
  2:{ simpl. by rewrite His. }
  exists n. destruct W'. split; simpl; try done.
  - unfold inds, ilist; simpl. rewrite take_ge by lia. subst is. by apply pick_Forall.
  - unfold num_rows. simpl. by rewrite Hlen.
Qed.

(** ** ReverseView *)
Lemma abs_reverse h d : wf h d -> abs h (reverse_view d) = t_reverse (abs h d).
Proof.
  intros [n W]. unfold reverse_view, t_reverse, abs. simpl. f_equal.
  - unfold num_rows; simpl. by rewrite reverse_length, (wfn_inds_length _ _ _ W).
  - rewrite <- map_fmap_compose. apply map_fmap_ext. intros k s Hk. simpl.
    destruct (wfn_col _ _ _ _ _ W Hk) as (_ & _ & Hr).
    unfold inds at 1, ilist; simpl. rewrite firstn_all. by rewrite pick_reverse.
Qed.
Lemma wf_reverse h d : wf h d -> wf h (reverse_view d).
Proof.
  intros [n W]. exists n. pose proof (wfn_inds_length _ _ _ W) as Hl. destruct W. split; simpl; try done.
  - unfold inds at 1, ilist; simpl. rewrite firstn_all.
    apply Forall_reverse. exact wf_rng.
  - unfold num_rows; simpl. by rewrite reverse_length, Hl.
Qed.

(** ** cut and SliceView *)
Lemma t_slice_select h d n a b : wfn h d n -> a <= b -> b <= num_rows d ->
  t_slice a b (abs h d) = t_select (seq a (b - a)) (abs h d).
Proof.
  intros W Hab Hb. unfold t_slice, t_select. rewrite seq_length. f_equal.
  unfold abs; simpl. rewrite <- !map_fmap_compose. apply map_fmap_ext. intros k s Hk. simpl.
  destruct (wfn_col _ _ _ _ _ W Hk) as (_ & _ & Hr).
  rewrite pick_seq; [done|]. rewrite pick_length, (wfn_inds_length _ _ _ W) by done. lia.
Qed.

Lemma take_seq m a n : m <= n -> take m (seq a n) = seq a m.
Proof.
  intros H. apply list_eq. intros i. destruct (decide (i < m)) as [Hi|Hi].
  - rewrite lookup_take, !lookup_seq_lt by lia. done.
  - rewrite lookup_take_ge, lookup_seq_ge by lia. done.
Qed.

Lemma drop_seq m a n : drop m (seq a n) = seq (a + m) (n - m).
Proof.
  apply list_eq. intros i. rewrite lookup_drop. destruct (decide (m + i < n)) as [Hi|Hi].
  - rewrite !lookup_seq_lt by lia. f_equal. lia.
  - rewrite !lookup_seq_ge by lia. done.
Qed.

Lemma sl_vals_cut h k s from to : col_ok h k s -> (0 <= from <= to)%Z -> (to <= Z.of_nat (s_len s))%Z ->
  sl_vals h (sl_cut from to s) = take (Z.to_nat (to - from)) (drop (Z.to_nat from) (sl_vals h s)).
Proof.
  intros (H1 & H2 & H3) Hft Hto. unfold sl_vals, sl_cut. simpl.
  rewrite <- drop_drop, <- skipn_firstn_comm || idtac.
  apply list_eq. intros i. destruct (decide (i < Z.to_nat (to - from))) as [Hi|Hi].
  - rewrite !lookup_take by done. rewrite !lookup_drop. rewrite lookup_take by lia.
    rewrite lookup_drop. f_equal. lia.
  - by rewrite !lookup_take_ge by lia.
Qed.
Lemma col_ok_cut h k s from to : col_ok h k s -> (0 <= from <= to)%Z -> (to <= Z.of_nat (s_len s))%Z ->
  col_ok h k (sl_cut from to s).
Proof.
  intros (H1 & H2 & H3) Hft Hto. unfold sl_cut. split; simpl; [lia|]. split; [lia|].
  apply Forall_forall. intros v Hv. apply elem_of_list_lookup in Hv as [i Hi].
  assert (i < s_cap s - Z.to_nat from) as Hi'.
  { apply lookup_lt_Some in Hi. rewrite take_length in Hi. lia. }
  rewrite lookup_take, lookup_drop in Hi by done.
  apply (Forall_lookup_1 _ _ (Z.to_nat from + i) v H3).
  rewrite lookup_take, lookup_drop by lia. rewrite <- Hi. f_equal. lia.
Qed.

Lemma names_empty : names ∅ = ∅.
Proof. unfold names. by rewrite map_to_list_empty. Qed.

Lemma cut_spec h d from to : wf h d -> (0 <= from <= to)%Z -> (to <= Z.of_nat (num_rows d))%Z ->
  exists v h', cut (view d) from to h = Ok (v, h') /\
    abs h' v = t_slice (Z.to_nat from) (Z.to_nat to) (abs h d) /\
    wf h' v /\ ext h h' /\ h_arr h' = h_arr h.
Proof.
  intros [n W] Hft Hto. unfold cut. rewrite (bind_eq _ _ h (mp h (r_maps (d_raw (view d)))) h) by done.
  pose proof (wfn_inds_length _ _ _ W) as Hlen.
  pose proof (wf_ilen _ _ _ W) as Hil.
  change (num_rows d) with (ilen (d_ind d)) in *.
  set (w := bool_decide _).
  change (d_viewed (view d)) with (d_viewed d). change (r_sharedMaps (d_raw (view d))) with true.
  destruct (d_viewed d || (true && negb w)) eqn:Hbr.
  - (* index branch *)
    unfold ind_cut. change (d_ind (view d)) with (d_ind d). rewrite decide_True by lia.
    eexists _, h. split; [reflexivity|].
    set (x := Ind (drop (Z.to_nat from) (ibuf (d_ind d))) (Z.to_nat (to - from))).
    assert (ilist x = pick (seq (Z.to_nat from) (Z.to_nat to - Z.to_nat from)) (inds d)) as Hx.
    { unfold x, ilist; simpl. rewrite pick_seq by (rewrite Hlen; lia).
      unfold inds, ilist. rewrite skipn_firstn_comm, take_take. f_equal. lia. }
    split; [|split; [|split; [done|done]]].
    + rewrite (t_slice_select _ _ n _ _ W) by (unfold num_rows; lia).
      rewrite <- (abs_select _ _ _ _ W).
      rewrite <- Hx. unfold abs; simpl. f_equal.
      unfold num_rows; simpl. rewrite seq_length. lia.
    + exists n. destruct W. split; simpl; try done.
      * rewrite drop_length. lia.
      * unfold inds at 1; simpl. fold x. rewrite Hx. by apply pick_Forall.
      * unfold num_rows in *; simpl in *. lia.
  - apply orb_false_iff in Hbr as [Hv Hw].
    destruct (wf_cont _ _ _ W Hv) as [Hseq Hn].
    change (num_rows d) with (ilen (d_ind d)) in *.
    destruct (own_maps_spec (d_raw (view d)) h) as
      (r & h1 & E1 & A1 & A2 & A3 & A4 & A5 & A6 & A7 & A8 & A9 & A10 & A11 & _);
      [apply (wf_map _ _ _ W)|exact (wf_shr _ _ _ W)|].
    destruct (A11 eq_refl) as (A11a & A11b & A11c).
    rewrite (bind_eq _ _ _ _ _ E1).
    unfold ind_cut. change (d_ind (view d)) with (d_ind d). rewrite decide_True by lia.
    rewrite (bind_eq _ _ _ _ _ (eq_refl : lift (Ok _) h1 = Ok (_, h1))).
    rewrite (bind_eq _ _ h1 (mp h1 (r_maps r)) h1) by done.
    rewrite A5. simpl in A5.
    assert (map_Forall (fun _ s => sl_cut_ok from to s) (mp h (r_maps (d_raw d)))) as Hcut.
    { intros k s Hk. destruct (wfn_col _ _ _ _ _ W Hk) as ((? & ? & ?) & Hs & _).
      unfold sl_cut_ok. lia. }
    rewrite decide_True by done.
    set (h2 := set_mp h1 (r_maps r) (sl_cut from to <$> mp h (r_maps (d_raw d)))).
    rewrite (bind_eq _ _ h1 tt h2) by done.
    destruct (shr_add_spec (r_shared r) (names (mp h (r_maps (d_raw d)))) h2)
      as (sh & h3 & E3 & O3 & V3 & _).
    rewrite (bind_eq _ _ _ _ _ E3).
    assert (ext h h2) as X2 by (apply ext_set_mp; [done|lia]).
    assert (ext h h3) as X3 by (etrans; [exact X2|by apply only_shr_ext]).
    destruct V3 as [V3a V3b]; [done|].
    assert (h_arr h3 = h_arr h) as Harr.
    { rewrite (os_arr _ _ O3). simpl. done. }
    assert (mp h3 (r_maps r) = sl_cut from to <$> mp h (r_maps (d_raw d))) as Hmp.
    { unfold mp at 1. rewrite (os_map _ _ O3). simpl. by rewrite list_lookup_insert. }
    eexists _, h3. split; [reflexivity|].
    set (x := Ind (drop (Z.to_nat 0) (ibuf (d_ind d))) (Z.to_nat (to - from - 0))).
    assert (ilist x = seq 0 (Z.to_nat (to - from))) as Hx.
    { unfold x, ilist; simpl. rewrite Z.sub_0_r.
      rewrite ?drop_0.
      assert (take (Z.to_nat (to - from)) (ibuf (d_ind d)) = take (Z.to_nat (to - from)) (inds d)) as ->.
      { unfold inds, ilist. rewrite take_take. f_equal. lia. }
      rewrite Hseq, take_seq by lia. done. }
    split; [|split; [|split; [done|done]]].
    + rewrite (t_slice_select _ _ n _ _ W) by (unfold num_rows; lia).
      rewrite <- (abs_select _ _ _ _ W).
      unfold abs; simpl. f_equal.
      * unfold num_rows; simpl. rewrite seq_length. lia.
      * rewrite Hmp, <- map_fmap_compose. apply map_fmap_ext. intros k s Hk. simpl.
        destruct (wfn_col _ _ _ _ _ W Hk) as (Hok & Hs & Hr).
        unfold inds at 1; simpl. fold x. rewrite Hx.
        assert (sl_vals h3 (sl_cut from to s) = sl_vals h (sl_cut from to s)) as ->.
        { unfold sl_vals, arr. by rewrite Harr. }
        rewrite (sl_vals_cut _ _ _ _ _ Hok) by lia.
        rewrite pick_seq_take.
        2:{ rewrite take_length, drop_length, (col_ok_vals_length _ _ _ Hok). lia. }
        rewrite take_take, Nat.min_id.
        rewrite (pick_seq _ _ (inds d)) by (rewrite Hlen; lia).
        rewrite Hseq.
        assert (drop (Z.to_nat from) (seq 0 (ilen (d_ind d))) =
                seq (Z.to_nat from) (ilen (d_ind d) - Z.to_nat from)) as ->.
        { by rewrite drop_seq. }
        rewrite take_seq by lia.
        rewrite pick_seq by (rewrite (col_ok_vals_length _ _ _ Hok); lia).
        f_equal. lia.
      * rewrite A8. simpl. rewrite (ext_ostr _ _ _ X3); [done|]. apply W.
      * done.
      * done.
    + exists (Z.to_nat (to - from)). split; simpl.
      * rewrite (os_map _ _ O3). simpl. by rewrite insert_length.
      * rewrite A8. intros l Hl. pose proof (wf_str _ _ _ W l Hl).
        pose proof (prefix_length _ _ (e_str _ _ X3)). lia.
      * done.
      * rewrite Hmp. intros k s Hk. rewrite lookup_fmap in Hk.
        destruct (mp h (r_maps (d_raw d)) !! k) as [s0|] eqn:E0; [|done].
        injection Hk as <-. destruct (wfn_col _ _ _ _ _ W E0) as (Hok & Hs & Hr).
        split; [|done]. apply col_ok_cut; [|done|lia].
        by eapply ext_col_ok.
      * rewrite ?drop_length; lia.
      * unfold inds; simpl. fold x. rewrite Hx. apply Forall_forall. intros i Hi%elem_of_seq. lia.
      * intros _. unfold inds, num_rows; simpl. fold x. rewrite Hx. split; [f_equal; lia|lia].
      * eapply ext_mask_ok; [done|]. apply W.
      * unfold num_rows. simpl. pose proof (wf_mlen _ _ _ W). unfold num_rows in *. lia.
Qed.
End frame.
