(** SliceView, MaskView, ColumnView, ShuffleView, SampleView, Split*. *)
From Verif Require Export P_View.

Section frame.
Context {rt : GoRT}.

(** Bounds as SliceView translates them. *)
Definition bound (n : nat) (z : Z) : Z :=
  if decide (z < 0)%Z then (z + (Z.of_nat n + 1))%Z else z.

Lemma slice_view_fwd h d from to : wf h d ->
  (0 <= bound (num_rows d) from <= bound (num_rows d) to)%Z ->
  (bound (num_rows d) to <= Z.of_nat (num_rows d))%Z ->
  exists v h', slice_view d from to h = Ok (v, h') /\
    abs h' v = t_slice (Z.to_nat (bound (num_rows d) from))
                       (Z.to_nat (bound (num_rows d) to)) (abs h d) /\
    wf h' v /\ ext h h' /\ h_arr h' = h_arr h.
Proof.
  intros W H1 H2. unfold slice_view, bound in *. rewrite (decide_False (P := (_ > _)%Z)) by lia.
  by apply cut_spec.
Qed.

Lemma slice_view_rev h d from to : wf h d ->
  (0 <= bound (num_rows d) to < bound (num_rows d) from)%Z ->
  (bound (num_rows d) from <= Z.of_nat (num_rows d))%Z ->
  exists v h', slice_view d from to h = Ok (v, h') /\
    abs h' v = t_slice (Z.to_nat (bound (num_rows d) to))
                       (Z.to_nat (bound (num_rows d) from)) (t_reverse (abs h d)) /\
    wf h' v /\ ext h h' /\ h_arr h' = h_arr h.
Proof.
  intros W H1 H2. unfold slice_view, bound in *. rewrite (decide_True (P := (_ > _)%Z)) by lia.
  rewrite <- abs_reverse by done.
  apply cut_spec; [by apply wf_reverse|lia|].
  destruct W as [n W]. unfold reverse_view, num_rows; simpl.
  rewrite reverse_length, (wfn_inds_length _ _ _ W). unfold num_rows in *. lia.
Qed.

(** ** MaskView *)
Fixpoint true_from (j : nat) (mask : list bool) : list nat :=
  match mask with
  | [] => []
  | true :: mask => j :: true_from (S j) mask
  | false :: mask => true_from (S j) mask
  end.
Lemma true_positions_from j mask :
  fst <$> filter (fun p => p.2 = true) (zip (seq j (length mask)) mask) = true_from j mask.
Proof.
  revert j. induction mask as [|[] mask IH]; intros j; [done| |]; cbn [length seq zip zip_with].
  - rewrite filter_cons_True by done. cbn. f_equal. apply IH.
  - rewrite filter_cons_False by done. apply IH.
Qed.
Lemma true_positions_eq mask : true_positions mask = true_from 0 mask.
Proof. apply true_positions_from. Qed.

Lemma mask_loop_spec ix j mask :
  match mask_loop ix j mask with
  | Ok is => is = pick (true_from j mask) ix /\
             Forall (fun i => i < length ix) (true_from j mask)
  | Panic => Exists (fun i => length ix <= i) (true_from j mask)
  end.
Proof.
  revert j. induction mask as [|b mask IH]; intros j; simpl; [done|].
  specialize (IH (S j)). destruct b; [|done].
  destruct (ix !! j) as [i|] eqn:E.
  - destruct (mask_loop ix (S j) mask) as [is|]; simpl.
    + destruct IH as [-> IH]. split; [by rewrite pick_cons, E|].
      constructor; [by eapply lookup_lt_Some|done].
    + by right.
  - left. by apply lookup_ge_None.
Qed.
Lemma true_from_sorted j mask : StronglySorted lt (true_from j mask) /\
  Forall (fun i => j <= i) (true_from j mask).
Proof.
  revert j. induction mask as [|b mask IH]; intros j; simpl; [by split; constructor|].
  destruct (IH (S j)) as [I1 I2]. destruct b; split.
  - constructor; [done|]. eapply Forall_impl; [done|]. simpl. lia.
  - constructor; [lia|]. eapply Forall_impl; [done|]. simpl. lia.
  - done.
  - eapply Forall_impl; [done|]. simpl. lia.
Qed.
Lemma true_from_length_bound j mask n : Forall (fun i => i < n) (true_from j mask) ->
  length (true_from j mask) <= n - j.
Proof.
  revert j. induction mask as [|b mask IH]; intros j; simpl; [lia|].
  destruct b; intros H.
  - apply Forall_cons in H as [H1 H2]. specialize (IH (S j) H2). simpl. lia.
  - specialize (IH (S j) H). lia.
Qed.

Lemma mask_view_spec h d mask : wf h d ->
  match mask_view d mask h with
  | Ok (v, h') =>
      Forall (fun i => i < num_rows d) (true_positions mask) /\
      abs h' v = t_select (true_positions mask) (abs h d) /\ wf h' v /\ h' = h
  | Panic => Exists (fun i => num_rows d <= i) (true_positions mask)
  end.
Proof.
  intros [n W]. unfold mask_view. rewrite true_positions_eq.
  pose proof (mask_loop_spec (inds d) 0 mask) as Hm.
  pose proof (wfn_inds_length _ _ _ W) as Hl. rewrite Hl in Hm.
  destruct (mask_loop (inds d) 0 mask) as [is|] eqn:E; [|done].
  destruct Hm as [Hm Hr]. rewrite (bind_eq (lift (Ok is)) _ h is h) by done. unfold ret.
  set (x := Ind (is ++ replicate (length mask - length is) 0) (length is)).
  assert (ilist x = is) as Hx by (unfold x, ilist; simpl; by rewrite take_app).
  assert (length is = length (true_from 0 mask)) as Hlen.
  { rewrite Hm. apply pick_length. by rewrite Hl. }
  split; [done|]. split; [|split; [|done]].
  - rewrite <- (abs_select _ _ _ _ W). unfold abs; simpl. f_equal; [done|].
    apply map_fmap_ext. intros k s Hk. unfold inds at 1. simpl. fold x. by rewrite Hx, Hm.
  - exists n. pose proof (true_from_length_bound _ _ _ Hr) as Hb. destruct W. split; simpl; try done.
    + rewrite app_length. lia.
    + unfold inds at 1; simpl. fold x. rewrite Hx, Hm. by apply pick_Forall.
    + unfold num_rows at 1; simpl. lia.
Qed.

(** MaskView is IndexView of the true positions (view.go:73-87). *)
Lemma mask_view_index_view h d mask : wf h d ->
  match mask_view d mask h, index_view d (Z.of_nat <$> true_positions mask) h with
  | Ok (v, h1), Ok (w, h2) => abs h1 v = abs h2 w
  | Panic, Panic => True
  | _, _ => False
  end.
Proof.
  intros W. pose proof (mask_view_spec h d mask W) as H1.
  pose proof (index_view_spec h d (Z.of_nat <$> true_positions mask) W) as H2.
  assert (Z.to_nat <$> (Z.of_nat <$> true_positions mask) = true_positions mask) as Hid.
  { rewrite <- list_fmap_compose. rewrite <- (list_fmap_id (true_positions mask)) at 2.
    apply list_fmap_ext. intros i x _. simpl. lia. }
  destruct (mask_view d mask h) as [[v h1]|], (index_view d _ h) as [[w h2]|]; try done.
  - destruct H1 as (_ & -> & _). destruct H2 as (_ & -> & _). by rewrite Hid.
  - destruct H1 as (H1 & _). apply Exists_exists in H2 as (z & Hz & Hz').
    apply elem_of_list_fmap in Hz as (i & -> & Hi).
    rewrite Forall_forall in H1. specialize (H1 i Hi). lia.
  - destruct H2 as (H2 & _). apply Exists_exists in H1 as (i & Hi & Hi').
    rewrite Forall_forall in H2. specialize (H2 (Z.of_nat i)).
    rewrite elem_of_list_fmap in H2. specialize (H2 (ex_intro _ i (conj eq_refl Hi))). lia.
Qed.

(** ** ColumnView *)
Lemma elem_of_names m c : c ∈ names m <-> exists k s, m !! (k, c) = Some s.
Proof.
  unfold names. rewrite elem_of_list_to_set, elem_of_list_fmap. split.
  - intros ([[k c'] s] & -> & Hin). apply elem_of_map_to_list in Hin. eauto.
  - intros (k & s & Hks). exists ((k, c), s). split; [done|]. by apply elem_of_map_to_list.
Qed.
Lemma elem_of_names_of kk m c : c ∈ names_of kk m <-> exists s, m !! (kk, c) = Some s.
Proof.
  unfold names_of. rewrite elem_of_names. split.
  - intros (k & s & H). apply map_filter_lookup_Some in H as [H1 H2]. simpl in H2. subst. eauto.
  - intros (s & H). exists kk, s. by apply map_filter_lookup_Some.
Qed.

Lemma column_view_nil h d : column_view d [] h = Ok (view d, h).
Proof. done. Qed.

Lemma filter_fmap_names {A B} (cols : list string) (f : A -> B) (m : gmap key A) :
  filter (fun p : key * B => p.1.2 ∈ cols) (f <$> m) = f <$> filter (fun p : key * A => p.1.2 ∈ cols) m.
Proof.
  apply map_eq. intros k. rewrite lookup_fmap. apply option_eq. intros b.
  rewrite map_filter_lookup_Some, lookup_fmap. simpl. split.
  - intros [Hb HP]. destruct (m !! k) as [a|] eqn:E; [|done]. simpl in Hb. injection Hb as <-.
    assert (filter (fun p : key * A => p.1.2 ∈ cols) m !! k = Some a) as ->
      by by apply map_filter_lookup_Some. done.
  - destruct (filter (fun p : key * A => p.1.2 ∈ cols) m !! k) as [a|] eqn:E; [|done]. simpl. intros [= <-].
    apply map_filter_lookup_Some in E as [-> HP]. done.
Qed.

Lemma map_ok_filter h n P `{forall x, Decision (P x)} m : map_ok h n m -> map_ok h n (filter P m).
Proof. intros H1 k s Hk. apply map_filter_lookup_Some in Hk as [Hk _]. by apply H1. Qed.

Lemma column_view_spec h d cols : wf h d -> cols <> [] ->
  exists v h', column_view d cols h = Ok (v, h') /\
    abs h' v = t_project cols (abs h d) /\ wf h' v /\ ext h h' /\ h_arr h' = h_arr h /\
    r_maps (d_raw v) = length (h_map h) /\ r_sharedMaps (d_raw v) = false /\
    mp h' (r_maps (d_raw v)) = filter (fun p => p.1.2 ∈ cols) (mp h (r_maps (d_raw d))) /\
    (forall l, r_strs (d_raw v) = Some l -> length (h_str h) <= l) /\
    d_ind v = d_ind d /\ d_viewed v = d_viewed d.
Proof.
  intros [n W] Hne. unfold column_view. rewrite decide_False by done.
  set (h1 := Heap (h_arr h) (h_mask h) (h_map h ++ [∅]) (h_str h) (h_shr h)).
  rewrite (bind_eq _ _ h (length (h_map h)) h1) by done.
  destruct (shr_add_spec (r_shared (d_raw d)) (list_to_set cols) h1) as (sh & h2 & E2 & O2 & V2 & _).
  destruct V2 as [V2a V2b]; [exact (wf_shr _ _ _ W)|].
  rewrite (bind_eq _ _ _ _ _ E2).
  rewrite (bind_eq _ _ h2 (ostr h2 (r_strs (d_raw d))) h2) by done.
  rewrite (bind_eq _ _ h2 (mp h2 (r_maps (d_raw d))) h2) by done.
  assert (mp h2 (r_maps (d_raw d)) = mp h (r_maps (d_raw d))) as Hmp.
  { unfold mp. rewrite (os_map _ _ O2). simpl. rewrite lookup_app_l by apply W. done. }
  assert (ostr h2 (r_strs (d_raw d)) = ostr h (r_strs (d_raw d))) as Hst.
  { unfold ostr, str. by rewrite (os_str _ _ O2). }
  rewrite Hmp, Hst.
  set (sel := filter (fun p => p.1.2 ∈ cols) (mp h (r_maps (d_raw d)))).
  set (h3 := set_mp h2 (length (h_map h)) sel).
  rewrite (bind_eq _ _ h2 tt h3) by done.
  destruct (str_add_none_spec (names_of KObj sel ∩ ostr h (r_strs (d_raw d))) h3)
    as (st & h4 & E4 & O4 & V4 & S4 & F4).
  rewrite (bind_eq _ _ _ _ _ E4).
  assert (ext h h1) as X1.
  { split; try done. by eexists. }
  assert (ext h h4) as X4.
  { etrans; [|by apply only_new_str_ext]. apply ext_set_mp; [|done].
    etrans; [exact X1|by apply only_shr_ext]. }
  assert (h_arr h4 = h_arr h) as Harr.
  { rewrite (ns_arr _ _ O4). simpl. by rewrite (os_arr _ _ O2). }
  assert (mp h4 (length (h_map h)) = sel) as Hmp4.
  { unfold mp. rewrite (ns_map _ _ O4). simpl. rewrite list_lookup_insert; [done|].
    rewrite (os_map _ _ O2). simpl. rewrite app_length. simpl. lia. }
  assert (length (h_map h4) = S (length (h_map h))) as Hlm.
  { rewrite (ns_map _ _ O4). simpl. rewrite insert_length, (os_map _ _ O2). simpl.
    rewrite app_length. simpl. lia. }
  eexists _, h4. split; [reflexivity|]. simpl.
  split; [|split; [|do 5 (split; [done|]); split; [|done]]].
  - unfold abs, t_project; simpl. f_equal.
    + rewrite Hmp4. unfold sel. rewrite filter_fmap_names.
      apply map_fmap_ext. intros k s Hk. apply map_filter_lookup_Some in Hk as [Hk _].
      destruct (wfn_col _ _ _ _ _ W Hk) as (Hok & _ & _).
      by rewrite (ext_sl_vals _ _ _ _ X4 Hok).
    + rewrite S4. apply set_eq. intros c. rewrite elem_of_intersection, elem_of_filter, elem_of_names_of.
      unfold sel. split.
      * intros [(s & Hs) Hc]. apply map_filter_lookup_Some in Hs as [Hs Hin]. simpl in Hin.
        split; [|done]. split; [done|]. rewrite lookup_fmap, Hs. by eexists.
      * intros [[Hin [x Hx]] Hc]. split; [|done]. rewrite lookup_fmap in Hx.
        destruct (mp h (r_maps (d_raw d)) !! (KObj, c)) as [s|] eqn:E; [|done].
        exists s. by apply map_filter_lookup_Some.
  - exists n. split; simpl.
    + lia.
    + done.
    + rewrite (ns_shr _ _ O4). done.
    + rewrite Hmp4. apply map_ok_filter. eapply ext_map_ok; [done|]. apply W.
    + apply W.
    + apply W.
    + apply W.
    + eapply ext_mask_ok; [done|apply W].
    + apply W.
  - simpl in F4. rewrite (os_str _ _ O2) in F4. done.
Qed.

(** ** ShuffleView and SampleView *)
Lemma swap_perm i j l : swap i j l ≡ₚ l.
Proof.
  unfold swap. destruct (l !! i) as [a|] eqn:Ei; [|done]. destruct (l !! j) as [b|] eqn:Ej; [|done].
  destruct (decide (i = j)) as [->|Hij].
  - rewrite Ei in Ej. injection Ej as <-. rewrite list_insert_insert.
    by rewrite list_insert_id.
  - apply Permutation_inj. split; [by rewrite !insert_length|].
    set (f k := if decide (k = i) then j else if decide (k = j) then i else k).
    assert (f i = j) as Fi by (unfold f; by rewrite decide_True).
    assert (f j = i) as Fj by (unfold f; rewrite decide_False by congruence; by rewrite decide_True).
    assert (forall k, k <> i -> k <> j -> f k = k) as Fk.
    { intros k ? ?. unfold f. by rewrite !decide_False. }
    exists f. split.
    + intros x y. unfold f. repeat case_decide; congruence.
    + intros k. pose proof (lookup_lt_Some _ _ _ Ei). pose proof (lookup_lt_Some _ _ _ Ej).
      destruct (decide (k = j)) as [->|Hkj].
      { rewrite list_lookup_insert by (by rewrite insert_length). by rewrite Fj. }
      rewrite list_lookup_insert_ne by done.
      destruct (decide (k = i)) as [->|Hki]; [by rewrite list_lookup_insert, Fi|].
      by rewrite list_lookup_insert_ne, Fk.
Qed.
Lemma shuffle_perm rnd l : shuffle rnd l ≡ₚ l.
Proof.
  unfold shuffle. generalize (length l - 1). intros i. revert l.
  induction i as [|i IH]; intros l; cbn [shuffle_loop]; [done|]. rewrite IH. apply swap_perm.
Qed.

Lemma to_of_nat_list (l : list nat) : Z.to_nat <$> (Z.of_nat <$> l) = l.
Proof.
  rewrite <- list_fmap_compose. rewrite <- (list_fmap_id l) at 2.
  apply list_fmap_ext. intros i x _. simpl. lia.
Qed.
Lemma rng_of_nat_list (l : list nat) n : Forall (fun i => i < n) l ->
  ~ Exists (fun i => (i < 0 \/ Z.of_nat n <= i)%Z) (Z.of_nat <$> l).
Proof.
  intros H1 H2. apply Exists_exists in H2 as (z & Hz & Hz').
  apply elem_of_list_fmap in Hz as (i & -> & Hi).
  rewrite Forall_forall in H1. specialize (H1 i Hi). lia.
Qed.
Lemma perm_seq_rng p n : p ≡ₚ seq 0 n -> Forall (fun i => i < n) p.
Proof. intros H. rewrite H. apply Forall_forall. intros i Hi%elem_of_seq. lia. Qed.

(** IndexView with positions given as naturals. *)
Lemma index_view_nat h d l : wf h d -> Forall (fun i => i < num_rows d) l ->
  exists v h', index_view d (Z.of_nat <$> l) h = Ok (v, h') /\
    abs h' v = t_select l (abs h d) /\ wf h' v /\ ext h h' /\ h_arr h' = h_arr h /\
    d_viewed v = true /\ d_ind v = mk_ind (pick l (inds d)) /\ d_raw v = d_raw (view d).
Proof.
  intros W Hl. pose proof (index_view_spec h d (Z.of_nat <$> l) W) as H.
  destruct (index_view d (Z.of_nat <$> l) h) as [[v h']|].
  - rewrite to_of_nat_list in H. exists v, h'. split; [done|]. naive_solver.
  - exfalso. by eapply rng_of_nat_list.
Qed.

Lemma shuffle_view_spec rnd h d : wf h d ->
  exists p v h', p ≡ₚ seq 0 (num_rows d) /\ p = shuffle rnd (seq 0 (num_rows d)) /\
    shuffle_view rnd d h = Ok (v, h') /\
    abs h' v = t_select p (abs h d) /\ wf h' v /\ ext h h' /\ h_arr h' = h_arr h /\
    d_viewed v = true /\ d_ind v = mk_ind (pick p (inds d)) /\ d_raw v = d_raw (view d).
Proof.
  intros W. pose proof (shuffle_perm rnd (seq 0 (num_rows d))) as Hp.
  destruct (index_view_nat h d (shuffle rnd (seq 0 (num_rows d))) W) as (v & h' & H).
  { by apply perm_seq_rng. }
  eexists _, v, h'. split; [exact Hp|]. by split.
Qed.

(** Keeping a prefix of the index list of a view. *)
Lemma ind_cut_view h v a b t n : wfn h v n -> abs h v = t -> (0 <= a <= b)%Z ->
  (b <= Z.of_nat (num_rows v))%Z -> d_viewed v = true ->
  exists x, ind_cut a b (d_ind v) = Ok x /\
    abs h (set_ind v x) = t_slice (Z.to_nat a) (Z.to_nat b) t /\ wfn h (set_ind v x) n.
Proof.
  intros W Ht Hab Hb Hv. pose proof (wf_ilen _ _ _ W) as Hil. unfold num_rows in Hb.
  unfold ind_cut. rewrite decide_True by lia. eexists. split; [reflexivity|].
  set (x := Ind (drop (Z.to_nat a) (ibuf (d_ind v))) (Z.to_nat (b - a))).
  pose proof (wfn_inds_length _ _ _ W) as Hlen. unfold num_rows in Hlen.
  assert (ilist x = pick (seq (Z.to_nat a) (Z.to_nat b - Z.to_nat a)) (inds v)) as Hx.
  { unfold x, ilist; simpl. rewrite pick_seq by (rewrite Hlen; lia).
    unfold inds, ilist. rewrite skipn_firstn_comm, take_take. f_equal. lia. }
  split.
  - rewrite <- Ht, (t_slice_select _ _ n _ _ W) by (unfold num_rows; lia).
    rewrite <- (abs_select _ _ _ _ W), <- Hx. unfold abs; simpl. f_equal.
    unfold num_rows; simpl. rewrite seq_length. lia.
  - destruct W. split; simpl; try done.
    + rewrite drop_length. lia.
    + unfold inds at 1; simpl. fold x. rewrite Hx. by apply pick_Forall.
    + rewrite Hv. done.
    + unfold num_rows in *; simpl in *. lia.
Qed.

Lemma pick_slice_seq (p : list nat) n : n <= length p ->
  pick (seq 0 n) p = take n p.
Proof. apply pick_seq_take. Qed.

Lemma t_slice_of_select p n t : Forall (fun i => i < t_rows t) p -> t_ok t -> n <= length p ->
  t_slice 0 n (t_select p t) = t_select (take n p) t.
Proof.
  intros Hp Ht Hn. unfold t_slice, t_select; simpl. rewrite Nat.sub_0_r.
  rewrite take_length_le by done. f_equal. rewrite <- map_fmap_compose.
  apply map_fmap_ext. intros k col Hk. simpl. rewrite drop_0, pick_take; [done|].
  destruct (Ht k col Hk) as [-> _]. done.
Qed.

Lemma sample_view_spec rnd h d n repl : wf h d ->
  match sample_view rnd d n repl h with
  | Ok (v, h') => repl = false /\ (0 <= n <= Z.of_nat (num_rows d))%Z /\
      abs h' v = t_select (take (Z.to_nat n) (shuffle rnd (seq 0 (num_rows d)))) (abs h d) /\
      wf h' v /\ ext h h' /\ h_arr h' = h_arr h
  | Panic => repl = true \/ (n < 0 \/ Z.of_nat (num_rows d) < n)%Z
  end.
Proof.
  intros W. unfold sample_view. destruct repl; [by left|].
  destruct (decide (n > Z.of_nat (num_rows d))%Z) as [Hn|Hn]; [right; lia|].
  destruct (shuffle_view_spec rnd h d W) as (p & v & h' & Hp & Hpe & E & Ha & Hw & Hx & Harr & Hvw & Hi & Hr).
  rewrite (bind_eq _ _ _ _ _ E).
  assert (length p = num_rows d) as Hlp by by rewrite Hp, seq_length.
  assert (num_rows v = num_rows d) as Hnv.
  { apply (f_equal t_rows) in Ha. simpl in Ha. by rewrite <- Hlp. }
  destruct (decide (0 <= n)%Z) as [H0|H0].
  - destruct Hw as [m Hw].
    destruct (ind_cut_view h' v 0 n _ m Hw Ha) as (x & Ex & Ax & Wx); [lia|lia|done|].
    rewrite Ex. rewrite (bind_eq (lift (Ok x)) _ h' x h') by done. unfold ret.
    split; [done|]. split; [lia|]. split; [|split; [by exists m|done]].
    rewrite Ax, <- Hpe. simpl. apply t_slice_of_select.
    + simpl. by apply perm_seq_rng.
    + by apply abs_ok.
    + lia.
  - unfold ind_cut. rewrite decide_False by lia. right. lia.
Qed.
End frame.
