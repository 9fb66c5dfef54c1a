(** SplitView, SplitNView, SplitTrainTestViews, SortedView, TopView,
    ResetIndexView; completeness of shuffling. *)
From Verif Require Export P_Order P_View2.
From Verif Require P_Float.

Section frame.
Context {rt : GoRT}.

(** ** every permutation is the outcome of some random source *)
Lemma swap_lookup_ne i j k l : k <> i -> k <> j -> swap i j l !! k = l !! k.
Proof.
  intros Hi Hj. unfold swap. destruct (l !! i), (l !! j); try done.
  by rewrite !list_lookup_insert_ne.
Qed.
Lemma swap_lookup_l i j l a : i < length l -> l !! j = Some a -> swap i j l !! i = Some a.
Proof.
  intros Hi Hj. unfold swap. destruct (lookup_lt_is_Some_2 l i Hi) as [b Hb]. rewrite Hb, Hj.
  pose proof (lookup_lt_Some _ _ _ Hj).
  destruct (decide (i = j)) as [->|Hne].
  - rewrite list_lookup_insert by by rewrite insert_length. congruence.
  - rewrite list_lookup_insert_ne by done. by rewrite list_lookup_insert.
Qed.
Lemma swap_length i j l : length (swap i j l) = length l.
Proof. unfold swap. destruct (l !! i), (l !! j); by rewrite ?insert_length. Qed.
Lemma take_perm_S (i : nat) (p q : list nat) a : length p = length q ->
  p !! i = Some a -> q !! i = Some a -> take (S i) p ≡ₚ take (S i) q -> take i p ≡ₚ take i q.
Proof.
  intros Hlen Hp Hq H. rewrite (take_S_r _ _ _ Hp), (take_S_r _ _ _ Hq) in H.
  by apply Permutation_app_inv_r in H.
Qed.
Lemma shuffle_loop_ext r1 r2 i l : (forall k, k <= i -> r1 k = r2 k) ->
  shuffle_loop r1 i l = shuffle_loop r2 i l.
Proof.
  revert l. induction i as [|i IH]; intros l H; [done|]. cbn [shuffle_loop].
  rewrite H by lia. apply IH. intros k Hk. apply H. lia.
Qed.
Lemma shuffle_loop_complete i l p : i < length l -> l ≡ₚ p ->
  (forall k, i < k -> l !! k = p !! k) ->
  exists rnd, shuffle_loop rnd i l = p.
Proof.
  revert l. induction i as [|i IH]; intros l Hi Hp Htail.
  - exists (fun _ => 0). simpl. pose proof (Permutation_length Hp) as Hlen.
    apply list_eq. intros [|k]; [|apply Htail; lia].
    destruct l as [|a l]; [simpl in Hi; lia|]. destruct p as [|b p]; [done|].
    assert (l = p) as ->. { apply list_eq. intros k. apply (Htail (S k)). lia. }
    simpl. apply Permutation_app_inv_r in Hp || idtac.
    change (a :: p) with ([a] ++ p) in Hp. change (b :: p) with ([b] ++ p) in Hp.
    apply Permutation_app_inv_r in Hp. apply Permutation_singleton_inj in Hp. by subst.
  - pose proof (Permutation_length Hp) as Hlen.
    destruct (lookup_lt_is_Some_2 p (S i)) as [a Ha]; [lia|].
    assert (take (S (S i)) l ≡ₚ take (S (S i)) p) as Htk.
    { assert (drop (S (S i)) l = drop (S (S i)) p) as Hd.
      { apply list_eq. intros k. rewrite !lookup_drop. apply Htail. lia. }
      rewrite <- (take_drop (S (S i)) l), <- (take_drop (S (S i)) p), Hd in Hp.
      by apply Permutation_app_inv_r in Hp. }
    assert (a ∈ take (S (S i)) l) as Hin.
    { rewrite Htk. apply elem_of_list_lookup. exists (S i). by rewrite lookup_take by lia. }
    apply elem_of_list_lookup in Hin as [j Hj].
    assert (j < S (S i)) as Hj'. { apply lookup_lt_Some in Hj. rewrite take_length in Hj. lia. }
    rewrite lookup_take in Hj by done.
    destruct (IH (swap (S i) j l)) as [rnd Hr].
    + rewrite swap_length. lia.
    + by rewrite swap_perm.
    + intros k Hk. destruct (decide (k = S i)) as [->|Hne].
      * rewrite Ha. apply swap_lookup_l; [lia|done].
      * rewrite swap_lookup_ne by lia. apply Htail. lia.
    + exists (fun k => if decide (k = S i) then j else rnd k).
      cbn [shuffle_loop]. rewrite decide_True by done. rewrite Nat.mod_small by lia.
      rewrite <- Hr. apply shuffle_loop_ext. intros k Hk. rewrite decide_False by lia. done.
Qed.
Lemma shuffle_complete l p : l ≡ₚ p -> exists rnd, shuffle rnd l = p.
Proof.
  intros Hp. unfold shuffle. destruct (decide (l = [])) as [->|Hne].
  - symmetry in Hp. apply Permutation_nil_r in Hp. subst p. exists (fun _ => 0). done.
  - apply shuffle_loop_complete; [destruct l; [congruence|simpl; lia]|done|].
    intros k Hk. pose proof (Permutation_length Hp).
    rewrite !lookup_ge_None_2 by lia. done.
Qed.

(** ** SplitView *)
Lemma split_loop_spec d b n : (0 < b)%Z -> 0 < n -> forall i h, wf h d -> (0 <= i)%Z ->
  (i + (Z.of_nat n - 1) * b <= Z.of_nat (num_rows d) <= i + Z.of_nat n * b)%Z ->
  exists vs h', split_loop d n i b h = Ok (vs, h') /\ ext h h' /\ h_arr h' = h_arr h /\
    Forall (wf h') vs /\
    abs h' <$> vs =
      (fun j => t_slice (Z.to_nat i + j * Z.to_nat b)
                        (num_rows d `min` (Z.to_nat i + S j * Z.to_nat b)) (abs h d)) <$> seq 0 n.
Proof.
  intros Hb Hn. induction n as [|n IH]; intros i h W Hi Hrng; [lia|].
  destruct (decide (n = 0)) as [->|Hne].
  - clear IH. cbn [split_loop].
    destruct (cut_spec h d i (Z.of_nat (num_rows d)) W) as (v & h' & E & A & Wv & X & Har); [lia..|].
    rewrite (bind_eq _ _ _ _ _ E). exists [v], h'. split; [done|]. split; [done|].
    split; [done|]. split; [by constructor|]. cbn. rewrite A. f_equal. f_equal; lia.
  - assert (split_loop d (S n) i b = (let* v := cut (view d) i (i + b) in
            let* r := split_loop d n (i + b) b in ret (v :: r))) as Heq by by destruct n.
    rewrite Heq.
    assert (i + b <= Z.of_nat (num_rows d))%Z as Hib by nia.
    destruct (cut_spec h d i (i + b) W) as (v & h1 & E & A & Wv & X & Har); [lia|lia|].
    rewrite (bind_eq _ _ _ _ _ E).
    destruct (IH ltac:(lia) (i + b)%Z h1) as (vs & h' & E' & X' & Har' & Wvs & A');
      [by eapply ext_wf|lia|lia|].
    rewrite (bind_eq _ _ _ _ _ E'). exists (v :: vs), h'. split; [done|].
    split; [by etrans|]. split; [congruence|].
    split; [constructor; [by eapply ext_wf|done]|].
    cbn [seq]. rewrite !fmap_cons. rewrite (ext_abs _ _ _ X' Wv), A, A'. f_equal.
    + f_equal; lia.
    + rewrite <- fmap_S_seq, <- list_fmap_compose. rewrite (ext_abs _ _ _ X W).
      apply list_fmap_ext. intros k j _. simpl. f_equal; lia.
Qed.

(** Consecutive slices concatenate. *)
Lemma concat_slices {A} (l : list A) b n : length l <= n * b ->
  concat ((fun j => take (length l `min` (S j * b) - j * b) (drop (j * b) l)) <$> seq 0 n) = l.
Proof.
  revert l. induction n as [|n IH]; intros l Hl.
  - simpl in Hl. destruct l; [done|simpl in Hl; lia].
  - cbn [seq]. rewrite fmap_cons. cbn [concat]. rewrite <- fmap_S_seq, <- list_fmap_compose.
    simpl (0 * b). rewrite drop_0, Nat.sub_0_r, Nat.mul_1_l.
    destruct (decide (length l <= b)) as [Hb|Hb].
    + rewrite Nat.min_l by lia. rewrite firstn_all.
      assert (concat ((compose (fun j => take (length l `min` (S j * b) - j * b) (drop (j * b) l)) S)
                        <$> seq 0 n) = []) as ->.
      { clear IH. induction (seq 0 n) as [|j js IHj]; [done|]. rewrite fmap_cons. cbn [concat].
        rewrite IHj. simpl. rewrite drop_ge by lia. by rewrite take_nil. }
      by rewrite app_nil_r.
    + rewrite Nat.min_r by lia.
      transitivity (take b l ++ drop b l); [|apply take_drop]. f_equal.
      transitivity (concat ((fun j => take (length (drop b l) `min` (S j * b) - j * b)
                                          (drop (j * b) (drop b l))) <$> seq 0 n));
        [|apply IH; rewrite drop_length; lia].
      f_equal. apply list_fmap_ext. intros k j _. simpl.
      rewrite drop_drop, drop_length. f_equal. lia.
Qed.
Lemma sum_slices m b n : m <= n * b ->
  sum_list ((fun j => m `min` (S j * b) - j * b) <$> seq 0 n) = m.
Proof.
  revert m. induction n as [|n IH]; intros m Hm; [simpl in *; lia|].
  assert (forall a l, sum_list (a :: l) = a + sum_list l) as Hcons by done.
  cbn [seq]. rewrite fmap_cons, Hcons, <- fmap_S_seq, <- list_fmap_compose.
  assert (sum_list (compose (fun j => m `min` (S j * b) - j * b) S <$> seq 0 n) = m - b) as Hs.
  { rewrite <- (IH (m - b)) by lia. f_equal. apply list_fmap_ext. intros k j _. simpl. lia. }
  rewrite Hs. lia.
Qed.

Lemma t_concat_slices t b n : t_ok t -> t_rows t <= n * b ->
  t_concat ((fun j => t_slice (j * b) (t_rows t `min` (S j * b)) t) <$> seq 0 n) t.
Proof.
  intros Hok Hn. split; [|split].
  - rewrite <- list_fmap_compose. symmetry. apply (sum_slices _ _ _ Hn).
  - apply Forall_fmap, Forall_forall. intros j _. simpl. by rewrite dom_fmap_L.
  - intros k col Hk. destruct (Hok k col Hk) as [Hl _]. rewrite <- list_fmap_compose.
    rewrite <- (concat_slices col b n) at 1 by lia. f_equal. apply list_fmap_ext. intros i j _.
    simpl. by rewrite lookup_fmap, Hk, Hl.
Qed.
Lemma t_concat_single t : t_concat [t] t.
Proof.
  split; [simpl; lia|]. split; [by repeat constructor|]. intros k col Hk. simpl. rewrite Hk.
  simpl. by rewrite app_nil_r.
Qed.

Lemma split_view_spec h d b : wf h d ->
  match split_view d b h with
  | Ok (vs, h') => (0 < b)%Z /\ ext h h' /\ h_arr h' = h_arr h /\ Forall (wf h') vs /\
      t_concat (abs h' <$> vs) (abs h d) /\ vs <> [] /\
      (forall i v, vs !! i = Some v -> S i < length vs -> Z.of_nat (num_rows v) = b) /\
      (forall v, last vs = Some v -> (Z.of_nat (num_rows v) <= b)%Z /\
                                    (0 < num_rows d -> 0 < num_rows v))
  | Panic => (b <= 0)%Z
  end.
Proof.
  intros W. unfold split_view. destruct (decide (b <= 0)%Z) as [Hb|Hb]; [done|].
  set (rows := Z.of_nat (num_rows d)).
  set (n := (if decide (rows mod b = 0) then rows / b else rows / b + 1)%Z).
  assert ((n - 1) * b < rows \/ (rows = 0 /\ n = 0))%Z as Hn1.
  { unfold n. pose proof (Z.div_mod rows b ltac:(lia)). pose proof (Z.mod_pos_bound rows b ltac:(lia)).
    destruct (decide (rows mod b = 0)%Z); nia. }
  assert (rows <= n * b)%Z as Hn2.
  { unfold n. pose proof (Z.div_mod rows b ltac:(lia)). pose proof (Z.mod_pos_bound rows b ltac:(lia)).
    destruct (decide (rows mod b = 0)%Z); nia. }
  destruct (decide (n <= 1)%Z) as [Hn|Hn].
  - unfold ret. split; [lia|]. split; [done|]. split; [done|].
    split; [constructor; [by apply wf_view|done]|]. split; [apply t_concat_single|].
    split; [done|]. split.
    + intros i v _ Hi. simpl in Hi. lia.
    + intros v [= <-]. change (num_rows (view d)) with (num_rows d). split; [|done]. nia.
  - destruct (split_loop_spec d b (Z.to_nat n) ltac:(lia) ltac:(lia) 0%Z h W)
      as (vs & h' & E & X & Har & Wvs & A); [lia| |].
    { rewrite Z2Nat.id by lia. fold rows. destruct Hn1; [lia|]. nia. }
    rewrite E. split; [lia|]. split; [done|]. split; [done|]. split; [done|].
    assert (length vs = Z.to_nat n) as Hlen.
    { apply (f_equal length) in A. rewrite !fmap_length, seq_length in A. done. }
    assert (forall i v, vs !! i = Some v -> num_rows v =
              num_rows d `min` (S i * Z.to_nat b) - i * Z.to_nat b) as Hrows.
    { intros i v Hv. apply (f_equal (fun l => t_rows <$> (l !! i))) in A.
      rewrite !list_lookup_fmap, Hv in A.
      rewrite lookup_seq_lt in A by (apply lookup_lt_Some in Hv; lia).
      simpl in A. injection A as A. rewrite A. done. }
    split; [|split; [|split]].
    + rewrite A. apply (t_concat_slices (abs h d)); [by apply abs_ok|]. simpl. nia.
    + intros ->. simpl in Hlen. lia.
    + intros i v Hv Hi. rewrite (Hrows _ _ Hv).
      assert ((Z.of_nat (S i)) * b <= (n - 1) * b)%Z by nia.
      assert (S i * Z.to_nat b <= num_rows d) by nia. nia.
    + intros v Hv. rewrite last_lookup in Hv. rewrite (Hrows _ _ Hv). rewrite Hlen in *.
      split; [nia|]. intros Hpos. destruct Hn1 as [Hn1|]; [|lia].
      assert ((Z.to_nat n - 1) * Z.to_nat b < num_rows d) by nia.
      replace (pred (Z.to_nat n)) with (Z.to_nat n - 1) by lia. nia.
Qed.

(** ** SplitNView *)
Lemma empty_df0_spec cpu h : exists e h', empty_df 0 cpu h = Ok (e, h') /\ ext h h' /\
  h_arr h' = h_arr h /\ wf h' e /\ num_rows e = 0 /\ t_cols (abs h' e) = ∅ /\ t_strs (abs h' e) = ∅.
Proof.
  eexists (DF (Raw (length (h_map h)) None false None cpu None) (mk_ind []) nil_slice false false),
    (Heap (h_arr h) (h_mask h) (h_map h ++ [∅]) (h_str h) (h_shr h)).
  split; [reflexivity|]. split; [split; try done; by eexists|].
  split; [done|]. split; [|split; [done|]].
  - exists 0. split; simpl; try done.
    + rewrite app_length. simpl. lia.
    + rewrite mp_new. intros k s Hk. by rewrite lookup_empty in Hk.
    + constructor.
    + split; simpl; lia.
  - simpl. rewrite mp_new. split; [apply fmap_empty|done].
Qed.

Lemma split_n_view_spec h d n : wf h d -> 0 < num_rows d \/ (n <= 1)%Z ->
  match split_n_view d n h with
  | Ok (vs, h') => (0 <= n)%Z /\ length vs = Z.to_nat n /\ ext h h' /\ h_arr h' = h_arr h /\
      Forall (wf h') vs /\
      ((0 < n)%Z -> exists parts pad, vs = parts ++ pad /\ t_concat (abs h' <$> parts) (abs h d) /\
                  Forall (fun v => num_rows v = 0 /\ t_cols (abs h' v) = ∅ /\ t_strs (abs h' v) = ∅) pad)
  | Panic => (n < 0)%Z
  end.
Proof.
  intros W Hne. unfold split_n_view. destruct (decide (n < 0)%Z) as [Hn|Hn]; [done|].
  destruct (decide (n = 0)%Z) as [->|Hn0].
  { unfold ret. split; [done|]. split; [done|]. split; [done|]. split; [done|]. split; [done|lia]. }
  destruct (decide (n = 1%Z \/ num_rows d = 0)) as [H1|H1].
  { assert (n = 1%Z) as -> by lia. unfold ret. split; [done|]. split; [done|]. split; [done|].
    split; [done|]. split; [constructor; [by apply wf_view|done]|]. intros _.
    exists [view d], []. split; [done|]. split; [apply t_concat_single|done]. }
  set (rows := Z.of_nat (num_rows d)).
  set (b := (if decide (rows mod n = 0) then rows / n else rows / n + 1)%Z).
  assert (0 < b)%Z as Hb.
  { unfold b. pose proof (Z.div_mod rows n ltac:(lia)). pose proof (Z.mod_pos_bound rows n ltac:(lia)).
    destruct (decide (rows mod n = 0)%Z); nia. }
  assert (rows <= n * b)%Z as Hnb.
  { unfold b. pose proof (Z.div_mod rows n ltac:(lia)). pose proof (Z.mod_pos_bound rows n ltac:(lia)).
    destruct (decide (rows mod n = 0)%Z); nia. }
  pose proof (split_view_spec h d b W) as HS.
  destruct (split_view d b h) as [[vs h1]|] eqn:E; [|lia].
  rewrite (bind_eq _ _ _ _ _ E).
  destruct HS as (_ & X & Har & Wvs & C & Hvs & Hall & Hlast).
  assert (Z.of_nat (length vs) <= n)%Z as Hlen.
  { destruct C as (Crows & _ & _). simpl in Crows. fold rows in Crows.
    assert ((length vs - 1) * Z.to_nat b < num_rows d) as Hlt; [|nia].
    rewrite Crows. clear - Hall Hlast Hvs Hb H1.
    destruct (exists_last Hvs) as (ini & v & ->).
    rewrite app_length. simpl. replace (length ini + 1 - 1) with (length ini) by lia.
    rewrite fmap_app, fmap_app. rewrite last_snoc in Hlast.
    destruct (Hlast v eq_refl) as [_ Hl].
    assert (forall l1 l2, sum_list (l1 ++ l2) = sum_list l1 + sum_list l2) as Hsum.
    { induction l1 as [|a l1 IH]; intros l2; simpl; [done|]. rewrite IH. lia. }
    rewrite Hsum. simpl.
    assert (sum_list (t_rows <$> (abs h1 <$> ini)) = length ini * Z.to_nat b) as Hini.
    { assert (forall i w, ini !! i = Some w -> num_rows w = Z.to_nat b) as Hi.
      { intros i w Hw. pose proof (lookup_lt_Some _ _ _ Hw).
        assert (Z.of_nat (num_rows w) = b); [|lia]. apply (Hall i w).
        - by rewrite lookup_app_l.
        - rewrite app_length. simpl. lia. }
      clear - Hi. induction ini as [|w ini IH]; [done|].
      change (num_rows w + sum_list (t_rows <$> (abs h1 <$> ini)) = Z.to_nat b + length ini * Z.to_nat b).
      rewrite IH by (intros i x Hx; apply (Hi (S i) x Hx)). rewrite (Hi 0 w eq_refl). done. }
    rewrite Hini. assert (0 < num_rows d) as Hpos by lia. specialize (Hl Hpos). lia. }
  destruct (decide (0 < n - Z.of_nat (length vs))%Z) as [Hm|Hm].
  - destruct (empty_df0_spec (r_cpu (d_raw d)) h1) as (e & h2 & E2 & X2 & Har2 & We & Hre).
    rewrite (bind_eq _ _ _ _ _ E2). unfold ret. split; [lia|].
    split; [rewrite app_length, replicate_length; lia|]. split; [by etrans|]. split; [congruence|].
    split.
    + apply Forall_app. split; [|by apply Forall_replicate].
      eapply Forall_impl; [done|]. intros v. by apply ext_wf.
    + intros _. eexists vs, _. split; [reflexivity|]. split; [|by apply Forall_replicate].
      assert (abs h2 <$> vs = abs h1 <$> vs) as ->; [|done].
      apply list_fmap_ext. intros i v Hv. apply ext_abs; [done|].
      by eapply Forall_lookup_1.
  - unfold ret. split; [lia|]. split; [lia|]. split; [done|]. split; [done|]. split; [done|].
    intros _. exists vs, []. rewrite app_nil_r. done.
Qed.

(** ** SplitTrainTestViews *)
Lemma t_concat_two a t : t_ok t -> a <= t_rows t ->
  t_concat [t_slice 0 a t; t_slice a (t_rows t) t] t.
Proof.
  intros Hok Ha. split; [simpl; lia|]. split.
  - repeat constructor; simpl; by rewrite ?dom_fmap_L.
  - intros k col Hk. destruct (Hok k col Hk) as [Hl _]. simpl. rewrite !lookup_fmap, Hk. simpl.
    rewrite app_nil_r, drop_0, Nat.sub_0_r, <- Hl.
    rewrite (take_ge (drop a col)) by (rewrite drop_length; lia). apply take_drop.
Qed.

Lemma split_train_test_spec h d r : wf h d -> (Z.of_nat (num_rows d) <= 2 ^ 53)%Z ->
  valid_binary 53 1024 r = true -> f64_isnan r = false ->
  match split_train_test d r h with
  | Ok ((train, test), h') =>
      f64_lt r f64_zero = false /\ f64_lt f64_one r = false /\
      wf h' train /\ wf h' test /\ ext h h' /\ h_arr h' = h_arr h /\
      t_concat [abs h' train; abs h' test] (abs h d) /\
      Z.of_nat (num_rows test) =
        f64_trunc (f64_mul (f64_of_Z (Z.of_nat (num_rows d))) r)
  | Panic => f64_lt r f64_zero = true \/ f64_lt f64_one r = true
  end.
Proof.
  intros W Hsz Vr Nr. unfold split_train_test.
  destruct (f64_lt r f64_zero) eqn:H0; [by left|]. destruct (f64_lt f64_one r) eqn:H1; [by right|].
  cbn [orb]. set (rows := Z.of_nat (num_rows d)) in *.
  destruct (P_Float.ratio_trunc rows r ltac:(lia) Vr Nr H0 H1) as (_ & Hn & _).
  set (n := f64_trunc (f64_mul (f64_of_Z rows) r)) in *.
  assert (forall z, (0 <= z)%Z -> bound (num_rows d) z = z) as Hbd.
  { intros z Hz. unfold bound. by rewrite decide_False by lia. }
  destruct (slice_view_fwd h d 0 (rows - n) W) as (v1 & h1 & E1 & A1 & W1 & X1 & R1);
    [rewrite !Hbd; lia..|].
  rewrite (bind_eq _ _ _ _ _ E1).
  destruct (slice_view_fwd h1 d (rows - n) rows) as (v2 & h2 & E2 & A2 & W2 & X2 & R2);
    [by eapply ext_wf|rewrite !Hbd; lia..|].
  rewrite (bind_eq _ _ _ _ _ E2). unfold ret.
  rewrite !Hbd in A1, A2 by lia. rewrite (ext_abs _ _ _ X1 W) in A2.
  split; [done|]. split; [done|]. split; [by eapply ext_wf|]. split; [done|].
  split; [by etrans|]. split; [congruence|]. split.
  - rewrite (ext_abs _ _ _ X2 W1), A1, A2. unfold rows. rewrite Nat2Z.id.
    apply (t_concat_two (Z.to_nat (Z.of_nat (num_rows d) - n)) (abs h d)); [by apply abs_ok|]. simpl. lia.
  - apply (f_equal t_rows) in A2. simpl in A2. rewrite A2. lia.
Qed.

(** ** reading a column *)
Lemma gather_ok h s l : Forall (fun i => i < length (sl_vals h s)) l ->
  gather s l h = Ok (pick l (sl_vals h s), h).
Proof.
  induction 1 as [|i l Hi Hl IH]; [done|]. cbn [gather].
  destruct (lookup_lt_is_Some_2 _ _ Hi) as [v Hv].
  assert (sl_rd s i h = Ok (v, h)) as E by (unfold sl_rd; by rewrite Hv).
  rewrite (bind_eq _ _ _ _ _ E), (bind_eq _ _ _ _ _ IH), pick_cons, Hv. done.
Qed.
Lemma gather_col h d n k s : wfn h d n -> mp h (r_maps (d_raw d)) !! k = Some s ->
  gather s (inds d) h = Ok (pick (inds d) (sl_vals h s), h) /\
  t_cols (abs h d) !! k = Some (pick (inds d) (sl_vals h s)).
Proof.
  intros W Hk. destruct (wfn_col _ _ _ _ _ W Hk) as (_ & _ & Hr).
  split; [by apply gather_ok|]. simpl. by rewrite lookup_fmap, Hk.
Qed.

(** ** SortedView *)
Lemma filter_split_perm {A} (P : A -> Prop) `{forall x, Decision (P x)} (Q : A -> Prop)
    `{forall x, Decision (Q x)} (l : list A) :
  (forall x, Q x <-> ~ P x) -> filter P l ++ filter Q l ≡ₚ l.
Proof.
  intros HQ. induction l as [|a l IH]; [done|]. destruct (decide (P a)) as [Ha|Ha].
  - rewrite (filter_cons_True P), (filter_cons_False Q) by (done || rewrite HQ; tauto).
    simpl. by rewrite IH.
  - rewrite (filter_cons_False P), (filter_cons_True Q) by (done || rewrite HQ; tauto).
    rewrite <- Permutation_middle. by rewrite IH.
Qed.
Lemma filter_ext_in {A} (P Q : A -> Prop) `{forall x, Decision (P x)} `{forall x, Decision (Q x)} (l : list A) :
  (forall x, x ∈ l -> P x <-> Q x) -> filter P l = filter Q l.
Proof.
  induction l as [|a l IH]; intros HPQ; [done|].
  assert (filter P l = filter Q l) as E.
  { apply IH. intros x Hx. apply HPQ. by right. }
  pose proof (HPQ a (elem_of_list_here _ _)) as Ha. destruct (decide (P a)) as [HP|HP].
  - rewrite (filter_cons_True P), (filter_cons_True Q) by tauto. by rewrite E.
  - rewrite (filter_cons_False P), (filter_cons_False Q) by tauto. done.
Qed.
Lemma fst_zip_seq {A} (l : list A) : fst <$> zip (seq 0 (length l)) l = seq 0 (length l).
Proof. apply fst_zip. by rewrite seq_length. Qed.

(** Positions of the false entries, then those of the true ones, both in
    ascending order. *)
Definition false_first (vs : list val) : list nat :=
  filter (fun i => (is_true <$> vs !! i) = Some false) (seq 0 (length vs)) ++
  filter (fun i => (is_true <$> vs !! i) = Some true) (seq 0 (length vs)).

Lemma zip_filter_pos b (vs : list val) j (all : list val) :
  (forall i v, vs !! i = Some v -> all !! (j + i) = Some v) ->
  fst <$> filter (fun p : nat * val => is_true p.2 = b) (zip (seq j (length vs)) vs) =
  filter (fun i => (is_true <$> all !! i) = Some b) (seq j (length vs)).
Proof.
  revert j. induction vs as [|v vs IH]; intros j H; [done|].
  cbn [length seq zip zip_with].
  assert (all !! j = Some v) as Hj. { rewrite <- (Nat.add_0_r j). by apply H. }
  assert (forall i w, vs !! i = Some w -> all !! (S j + i) = Some w) as H'.
  { intros i w Hw. rewrite <- (H (S i) w Hw). f_equal. lia. }
  specialize (IH (S j) H'). fold (zip (seq (S j) (length vs)) vs).
  destruct (decide (is_true v = b)) as [Hb|Hb].
  - rewrite filter_cons_True by done.
    rewrite (filter_cons_True (fun i => (is_true <$> all !! i) = Some b)) by (rewrite Hj; simpl; by rewrite Hb).
    rewrite fmap_cons, IH. done.
  - rewrite filter_cons_False by done.
    rewrite (filter_cons_False (fun i => (is_true <$> all !! i) = Some b)) by (rewrite Hj; simpl; congruence).
    done.
Qed.
Lemma zip_filter_pos0 b (vs : list val) :
  fst <$> filter (fun p : nat * val => is_true p.2 = b) (zip (seq 0 (length vs)) vs) =
  filter (fun i => (is_true <$> vs !! i) = Some b) (seq 0 (length vs)).
Proof. by apply zip_filter_pos. Qed.

Lemma false_first_perm vs : false_first vs ≡ₚ seq 0 (length vs).
Proof.
  unfold false_first.
  assert (filter (fun i => (is_true <$> vs !! i) = Some true) (seq 0 (length vs)) =
          filter (fun i => ~ (is_true <$> vs !! i) = Some false) (seq 0 (length vs))) as ->.
  { apply filter_ext_in. intros i Hi%elem_of_seq.
    destruct (lookup_lt_is_Some_2 vs i ltac:(lia)) as [v Hv]. rewrite Hv. simpl.
    destruct (is_true v); split; congruence. }
  by apply filter_split_perm.
Qed.

Lemma StronglySorted_app {A} (R : A -> A -> Prop) l1 l2 :
  StronglySorted R (l1 ++ l2) <->
  StronglySorted R l1 /\ StronglySorted R l2 /\ (forall x y, x ∈ l1 -> y ∈ l2 -> R x y).
Proof.
  induction l1 as [|a l1 IH]; simpl.
  - split; [|tauto]. intros H. split; [constructor|]. split; [done|].
    intros x y Hx. by apply elem_of_nil in Hx.
  - split.
    + intros H. apply StronglySorted_inv in H as [H1 H2]. apply IH in H1 as (I1 & I2 & I3).
      apply Forall_app in H2 as [F1 F2]. split; [by constructor|]. split; [done|].
      intros x y Hx Hy. apply elem_of_cons in Hx as [->|Hx]; [|by apply I3].
      rewrite Forall_forall in F2. by apply F2.
    + intros (H1 & H2 & H3). apply StronglySorted_inv in H1 as [H1 H4].
      constructor.
      * apply IH. split; [done|]. split; [done|]. intros x y Hx Hy. apply H3; [by right|done].
      * apply Forall_app. split; [done|]. apply Forall_forall. intros y Hy. apply H3; [by left|done].
Qed.
Lemma StronglySorted_all {A} (R : A -> A -> Prop) l :
  (forall x y, x ∈ l -> y ∈ l -> R x y) -> StronglySorted R l.
Proof.
  induction l as [|a l IH]; intros H; constructor.
  - apply IH. intros x y Hx Hy. apply H; by right.
  - apply Forall_forall. intros y Hy. apply H; [by left|by right].
Qed.
Lemma elem_of_pick {A} (x : A) ix l : x ∈ pick ix l <-> exists i, i ∈ ix /\ l !! i = Some x.
Proof. unfold pick. rewrite elem_of_list_omap. done. Qed.

Lemma false_first_sorted vs : Forall (fun v => kind_of v = KBool) vs ->
  StronglySorted val_le (pick (false_first vs) vs).
Proof.
  intros Hk. unfold false_first. rewrite pick_app. apply StronglySorted_app.
  assert (forall b x, x ∈ pick (filter (fun i => (is_true <$> vs !! i) = Some b) (seq 0 (length vs))) vs ->
                      x = VBool b) as Hb.
  { intros b x Hx. apply elem_of_pick in Hx as (i & Hi & Hx). apply elem_of_list_filter in Hi as [Hi _].
    rewrite Hx in Hi. simpl in Hi. injection Hi as Hi.
    pose proof (Forall_lookup_1 _ _ _ _ Hk Hx) as Hkx. destruct x as [| | |[]]; try done; simpl in Hi; by subst b. }
  split; [|split].
  - apply StronglySorted_all. intros x y ->%Hb ->%Hb. by left.
  - apply StronglySorted_all. intros x y ->%Hb ->%Hb. by right.
  - intros x y ->%Hb ->%Hb. by left.
Qed.

Lemma StronglySorted_fmap {A B} (R : B -> B -> Prop) (f : A -> B) l :
  StronglySorted R (f <$> l) <-> StronglySorted (fun x y => R (f x) (f y)) l.
Proof.
  induction l as [|a l IH]; [by split; constructor|]. rewrite fmap_cons. split; intros H.
  - apply StronglySorted_inv in H as [H1 H2]. constructor; [by apply IH|]. apply (Forall_fmap f (R (f a))); exact H2.
  - apply StronglySorted_inv in H as [H1 H2]. constructor; [by apply IH|]. apply (Forall_fmap f (R (f a))); exact H2.
Qed.
Lemma StronglySorted_impl_in {A} (R S : A -> A -> Prop) l :
  (forall x y, x ∈ l -> y ∈ l -> R x y -> S x y) -> StronglySorted R l -> StronglySorted S l.
Proof.
  intros H HR. induction HR as [|a l Hl IH Ha]; constructor.
  - apply IH. intros x y Hx Hy. apply H; by right.
  - apply Forall_forall. intros y Hy. rewrite Forall_forall in Ha.
    apply H; [by left|by right|by apply Ha].
Qed.

Lemma asort_vals asort k vs : asort_ok asort -> k <> KBool ->
  Forall (fun v => kind_of v = k) vs -> Forall sortable vs ->
  StronglySorted val_le (pick (asort (as_float <$> vs)) vs).
Proof.
  intros HA Hk Hkind Hs.
  destruct (HA (as_float <$> vs)) as [_ HS].
  assert (Forall (fun x => f64_isnan x = false) (as_float <$> vs)) as Hn.
  { apply Forall_fmap. eapply Forall_impl; [exact Hs|]. intros [| f | z |]; simpl; try done.
    intros _. apply P_Float.f64_of_Z_nan. }
  specialize (HS Hn). rewrite pick_fmap in HS. apply StronglySorted_fmap in HS.
  eapply StronglySorted_impl_in; [|exact HS]. intros x y Hx Hy Hle. simpl in Hle.
  apply elem_of_pick in Hx as (i & _ & Hx). apply elem_of_pick in Hy as (j & _ & Hy).
  pose proof (Forall_lookup_1 _ _ _ _ Hkind Hx) as Kx. pose proof (Forall_lookup_1 _ _ _ _ Hkind Hy) as Ky.
  pose proof (Forall_lookup_1 _ _ _ _ Hs Hx) as Sx. pose proof (Forall_lookup_1 _ _ _ _ Hs Hy) as Sy.
  destruct x, y; simpl in *; try done; try congruence.
  by apply P_Float.f64_le_of_Z.
Qed.

Lemma sorted_view_spec asort h d c : wf h d -> asort_ok asort ->
  match sorted_view asort d c h with
  | Ok (v, h') => exists col p, sort_col (abs h d) c = Some col /\
      p ≡ₚ seq 0 (num_rows d) /\ abs h' v = t_select p (abs h d) /\
      (Forall sortable col -> StronglySorted val_le (pick p col)) /\
      (is_Some (t_cols (abs h d) !! (KBool, c)) ->
         p = filter (fun i => col !! i = Some (VBool false)) (seq 0 (num_rows d)) ++
             filter (fun i => col !! i = Some (VBool true)) (seq 0 (num_rows d))) /\
      wf h' v /\ ext h h' /\ h_arr h' = h_arr h /\ d_viewed v = true
  | Panic => sort_col (abs h d) c = None
  end.
Proof.
  intros W HA. pose proof W as [n Wn]. pose proof (abs_ok h d W) as Hok. unfold sorted_view, sort_col.
  rewrite (bind_eq _ _ h (mp h (r_maps (d_raw d))) h) by done.
  assert (forall k c0, mp h (r_maps (d_raw d)) !! (k, c0) = None -> t_cols (abs h d) !! (k, c0) = None) as HN.
  { intros k c0 Hk. simpl. by rewrite lookup_fmap, Hk. }
  destruct (mp h (r_maps (d_raw d)) !! (KBool, c)) as [s|] eqn:EB.
  - destruct (gather_col _ _ _ _ _ Wn EB) as [HG HC].
    rewrite (bind_eq _ _ _ _ _ HG). rewrite HC. set (vs := pick (inds d) (sl_vals h s)) in *.
    destruct (Hok _ _ HC) as [Hlen Hkind]. simpl in Hkind, Hlen.
    rewrite (zip_filter_pos0 false), (zip_filter_pos0 true). fold (false_first vs).
    pose proof (false_first_perm vs) as Hp. rewrite Hlen in Hp.
    destruct (index_view_nat h d (false_first vs) W) as (v & h' & E & A & Wv & X & R & Vw & _ & _).
    { by apply perm_seq_rng. }
    rewrite E. exists vs, (false_first vs). split; [done|]. split; [done|]. split; [done|].
    split; [intros _; by apply false_first_sorted|]. split; [|done]. intros _.
    unfold false_first. rewrite Hlen.
    assert (forall b x, (is_true <$> vs !! x) = Some b <-> vs !! x = Some (VBool b)) as Hx.
    { intros b x. destruct (vs !! x) as [w|] eqn:Ew; [|done].
      pose proof (Forall_lookup_1 _ _ _ _ Hkind Ew) as Kw. destruct w as [| | |[]]; try done;
        destruct b; done. }
    f_equal; apply filter_ext_in; intros x _; apply Hx.
  - rewrite (HN _ _ EB).
    assert (forall k s, k <> KBool -> mp h (r_maps (d_raw d)) !! (k, c) = Some s ->
      match (let* vs := gather s (inds d) in index_view d (Z.of_nat <$> asort (as_float <$> vs))) h with
      | Ok (v, h') => exists p, p ≡ₚ seq 0 (num_rows d) /\ abs h' v = t_select p (abs h d) /\
          (Forall sortable (pick (inds d) (sl_vals h s)) ->
             StronglySorted val_le (pick p (pick (inds d) (sl_vals h s)))) /\
          wf h' v /\ ext h h' /\ h_arr h' = h_arr h /\ d_viewed v = true
      | Panic => False
      end) as Hgen.
    { intros k s Hk Es. destruct (gather_col _ _ _ _ _ Wn Es) as [HG HC].
      rewrite (bind_eq _ _ _ _ _ HG). set (vs := pick (inds d) (sl_vals h s)) in *.
      destruct (Hok _ _ HC) as [Hlen Hkind]. simpl in Hkind, Hlen.
      destruct (HA (as_float <$> vs)) as [Hp _]. rewrite fmap_length, Hlen in Hp.
      destruct (index_view_nat h d (asort (as_float <$> vs)) W) as (v & h' & E & A & Wv & X & R & Vw & _ & _).
      { by apply perm_seq_rng. }
      rewrite E. exists (asort (as_float <$> vs)). split; [done|]. split; [done|].
      split; [|done]. intros Hs. by eapply asort_vals. }
    destruct (mp h (r_maps (d_raw d)) !! (KFloat, c)) as [s|] eqn:EF.
    + destruct (gather_col _ _ _ _ _ Wn EF) as [HG HC]. rewrite HC.
      pose proof (Hgen KFloat s ltac:(done) EF) as H.
      destruct ((let* vs := gather s (inds d) in index_view d (Z.of_nat <$> asort (as_float <$> vs))) h)
        as [[v h']|] eqn:E; [|done].
      destruct H as (p & H1 & H2 & H3 & H4). exists (pick (inds d) (sl_vals h s)), p.
      repeat (split; [done|]). split; [|done]. intros [x Hx]. discriminate Hx.
    + rewrite (HN _ _ EF). destruct (mp h (r_maps (d_raw d)) !! (KInt, c)) as [s|] eqn:EI.
      * destruct (gather_col _ _ _ _ _ Wn EI) as [HG HC]. rewrite HC.
        pose proof (Hgen KInt s ltac:(done) EI) as H.
        destruct ((let* vs := gather s (inds d) in index_view d (Z.of_nat <$> asort (as_float <$> vs))) h)
          as [[v h']|] eqn:E; [|done].
        destruct H as (p & H1 & H2 & H3 & H4). exists (pick (inds d) (sl_vals h s)), p.
        repeat (split; [done|]). split; [|done]. intros [x Hx]. discriminate Hx.
      * simpl. by apply HN.
Qed.

(** ** TopView *)
Lemma t_select_all t : t_ok t -> t_select (seq 0 (t_rows t)) t = t.
Proof.
  intros Hok. destruct t as [n cols st en cp]. unfold t_select; simpl. rewrite seq_length. f_equal.
  rewrite <- (map_fmap_id cols) at 2. apply map_fmap_ext. intros k col Hk.
  destruct (Hok k col Hk) as [Hl _]. simpl in Hl. subst n. apply pick_seq_all.
Qed.
Lemma t_slice_of_select2 p a b t : Forall (fun i => i < t_rows t) p -> t_ok t -> a <= b -> b <= length p ->
  t_slice a b (t_select p t) = t_select (take (b - a) (drop a p)) t.
Proof.
  intros Hp Ht Hab Hn. unfold t_slice, t_select; simpl.
  rewrite take_length_le by (rewrite drop_length; lia). f_equal. rewrite <- map_fmap_compose.
  apply map_fmap_ext. intros k col Hk. simpl. destruct (Ht k col Hk) as [Hl _].
  rewrite pick_take by (apply Forall_drop; by rewrite Hl). rewrite pick_drop by by rewrite Hl. done.
Qed.
Lemma t_reverse_select p t : Forall (fun i => i < t_rows t) p -> t_ok t ->
  t_reverse (t_select p t) = t_select (reverse p) t.
Proof.
  intros Hp Ht. unfold t_reverse, t_select; simpl. rewrite reverse_length. f_equal.
  rewrite <- map_fmap_compose. apply map_fmap_ext. intros k col Hk. simpl.
  destruct (Ht k col Hk) as [Hl _]. by rewrite pick_reverse by by rewrite Hl.
Qed.
Lemma StronglySorted_reverse {A} (R : A -> A -> Prop) l :
  StronglySorted R l -> StronglySorted (flip R) (reverse l).
Proof.
  induction 1 as [|a l Hl IH Ha]; [constructor|]. rewrite reverse_cons. apply StronglySorted_app.
  split; [done|]. split; [by repeat constructor|]. intros x y Hx Hy.
  apply elem_of_list_singleton in Hy as ->. rewrite elem_of_reverse in Hx. simpl.
  rewrite Forall_forall in Ha. by apply Ha.
Qed.
Lemma sort_col_ok t c col : t_ok t -> sort_col t c = Some col -> length col = t_rows t.
Proof.
  intros Hok. unfold sort_col. destruct (t_cols t !! (KBool, c)) eqn:E1.
  { intros [= <-]. by apply (Hok _ _ E1). }
  destruct (t_cols t !! (KFloat, c)) eqn:E2.
  { intros [= <-]. by apply (Hok _ _ E2). }
  intros E3. by apply (Hok _ _ E3).
Qed.

Lemma top_view_spec asort h d c n asc sorted : wf h d -> asort_ok asort ->
  match top_view asort d c n asc sorted h with
  | Ok (v, h') => (0 <= n)%Z /\ exists q rest, q ++ rest ≡ₚ seq 0 (num_rows d) /\
      length q = Z.to_nat n `min` num_rows d /\ abs h' v = t_select q (abs h d) /\
      (forall col, sort_col (abs h d) c = Some col -> Forall sortable col ->
         (forall i j x y, i ∈ q -> j ∈ rest -> col !! i = Some x -> col !! j = Some y ->
            if asc then val_le x y else val_le y x) /\
         (sorted = true -> StronglySorted (if asc then val_le else flip val_le) (pick q col))) /\
      wf h' v /\ ext h h' /\ h_arr h' = h_arr h
  | Panic => (sorted = true \/ n < Z.of_nat (num_rows d))%Z /\
             ((n < 0)%Z \/ sort_col (abs h d) c = None)
  end.
Proof.
  intros W HA. pose proof (abs_ok h d W) as Hok. unfold top_view.
  destruct (top_view_self d n sorted) eqn:Hself.
  { unfold top_view_self in Hself. apply andb_true_iff in Hself as [H1 H2].
    apply bool_decide_eq_true in H1. apply negb_true_iff in H2. subst sorted.
    unfold ret. split; [lia|]. exists (seq 0 (num_rows d)), []. rewrite app_nil_r, seq_length.
    split; [done|]. split; [lia|]. split; [symmetry; apply (t_select_all (abs h d)); done|].
    split; [|done]. intros col Hc Hs. split; [|done]. intros i j x y _ Hj. by apply elem_of_nil in Hj. }
  assert (sorted = true \/ n < Z.of_nat (num_rows d))%Z as Hns.
  { unfold top_view_self in Hself. apply andb_false_iff in Hself as [H|H].
    - apply bool_decide_eq_false in H. right. lia.
    - apply negb_false_iff in H. by left. }
  set (rows := Z.of_nat (num_rows d)) in *.
  set (n' := if decide (rows <= n)%Z then rows else n).
  assert ((n' < 0)%Z <-> (n < 0)%Z) as Hneg.
  { unfold n'. destruct (decide (rows <= n)%Z); lia. }
  destruct (decide (n' < 0)%Z) as [Hn|Hn]; [split; [done|left; by apply Hneg]|].
  assert (0 <= n' <= rows)%Z as Hn'.
  { unfold n' in *. destruct (decide (rows <= n)%Z); lia. }
  assert (Z.to_nat n' = Z.to_nat n `min` num_rows d) as Hmin.
  { unfold n', rows in *. destruct (decide (Z.of_nat (num_rows d) <= n)%Z); lia. }
  pose proof (sorted_view_spec asort h d c W HA) as HS.
  destruct (sorted_view asort d c h) as [[v h']|] eqn:E.
  2:{ unfold bind. rewrite E. split; [done|by right]. }
  rewrite (bind_eq _ _ _ _ _ E).
  destruct HS as (col & p & Hc & Hp & A & Hsrt & _ & [m Wv] & X & R & Vw).
  assert (length p = num_rows d) as Hlp by by rewrite Hp, seq_length.
  assert (num_rows v = num_rows d) as Hrv.
  { apply (f_equal t_rows) in A. simpl in A. by rewrite A. }
  assert (Forall (fun i => i < t_rows (abs h d)) p) as Hpr by by apply perm_seq_rng.
  assert (Forall (fun i => i < length col) p) as Hpc.
  { by rewrite (sort_col_ok _ _ _ Hok Hc). }
  destruct asc.
  - destruct (ind_cut_view h' v 0 n' _ m Wv A) as (x & Ex & Ax & Wx); [lia|lia|done|].
    rewrite Ex, (bind_eq (lift (Ok x)) _ h' x h') by done. unfold ret.
    split; [lia|]. exists (take (Z.to_nat n') p), (drop (Z.to_nat n') p).
    rewrite take_drop. split; [done|].
    split; [rewrite take_length; lia|]. split.
    { rewrite Ax. apply t_slice_of_select; [done|done|lia]. }
    split; [|split; [by exists m|done]].
    intros col' Hc' Hs. rewrite Hc in Hc'. injection Hc' as <-. specialize (Hsrt Hs).
    rewrite <- (take_drop (Z.to_nat n') p), pick_app in Hsrt.
    apply StronglySorted_app in Hsrt as (S1 & S2 & S3). split; [|done].
    intros i j y z Hi Hj Hy Hz. apply S3; apply elem_of_pick; eauto.
  - destruct (ind_cut_view h' v (rows - n') (Z.of_nat (num_rows v)) _ m Wv A) as (x & Ex & Ax & Wx);
      [lia|lia|done|].
    rewrite Ex, (bind_eq (lift (Ok x)) _ h' x h') by done. unfold ret.
    set (q := drop (Z.to_nat (rows - n')) p).
    assert (abs h' (set_ind v x) = t_select q (abs h d)) as Aq.
    { rewrite Ax. rewrite t_slice_of_select2 by (done || lia). unfold q.
      rewrite take_ge; [done|]. rewrite drop_length. lia. }
    assert (length q = Z.to_nat n `min` num_rows d) as Hlq.
    { unfold q. rewrite drop_length. lia. }
    assert (wf h' (set_ind v x)) as Wq by by exists m.
    assert (Forall (fun i => i < t_rows (abs h d)) q) as Hqr by by apply Forall_drop.
    assert (Forall (fun i => i < length col) q) as Hqc by by apply Forall_drop.
    split; [lia|]. destruct sorted.
    + exists (reverse q), (take (Z.to_nat (rows - n')) p).
      split. { rewrite reverse_Permutation. rewrite <- Hp. rewrite Permutation_app_comm.
               unfold q. by rewrite take_drop. }
      split; [by rewrite reverse_length|]. split.
      { rewrite abs_reverse, Aq by done. by apply t_reverse_select. }
      split; [|split; [by apply wf_reverse|done]].
      intros col' Hc' Hs. rewrite Hc in Hc'. injection Hc' as <-. specialize (Hsrt Hs).
      rewrite <- (take_drop (Z.to_nat (rows - n')) p), pick_app in Hsrt.
      apply StronglySorted_app in Hsrt as (S1 & S2 & S3). split.
      * intros i j y z Hi Hj Hy Hz. rewrite elem_of_reverse in Hi. apply S3; apply elem_of_pick; eauto.
      * intros _. rewrite pick_reverse by done. by apply StronglySorted_reverse.
    + exists q, (take (Z.to_nat (rows - n')) p).
      split. { rewrite <- Hp. rewrite Permutation_app_comm. unfold q. by rewrite take_drop. }
      split; [done|]. split; [done|]. split; [|done].
      intros col' Hc' Hs. rewrite Hc in Hc'. injection Hc' as <-. specialize (Hsrt Hs).
      rewrite <- (take_drop (Z.to_nat (rows - n')) p), pick_app in Hsrt.
      apply StronglySorted_app in Hsrt as (S1 & S2 & S3). split; [|done].
      intros i j y z Hi Hj Hy Hz. apply S3; apply elem_of_pick; eauto.
Qed.

(** ** ResetIndexView *)
Lemma perm_pick (l' l : list nat) : l' ≡ₚ l ->
  exists p, p ≡ₚ seq 0 (length l) /\ pick p l = l'.
Proof.
  induction 1 as [|x l' l H IH|x y l|l1 l2 l3 H1 IH1 H2 IH2].
  - by exists [].
  - destruct IH as (p & Hp & Hl). exists (0 :: (S <$> p)). split.
    + simpl. rewrite Hp. by rewrite fmap_S_seq.
    + rewrite pick_cons. simpl. f_equal. rewrite <- Hl. clear.
      induction p as [|i p IH]; [done|]. rewrite fmap_cons, !pick_cons, IH. done.
  - exists (1 :: 0 :: seq 2 (length l)). split; [simpl; constructor|].
    rewrite !pick_cons. simpl. f_equal. f_equal.
    rewrite pick_seq by (simpl; lia). simpl. by rewrite drop_0, firstn_all.
  - destruct IH1 as (p1 & Hp1 & Hl1), IH2 as (p2 & Hp2 & Hl2).
    exists (pick p1 p2).
    assert (Forall (fun i => i < length l3) p2) as Hr2 by by apply perm_seq_rng.
    pose proof (Permutation_length Hp2) as Hlen2. rewrite seq_length in Hlen2.
    pose proof (Permutation_length H2) as Hlen3.
    split.
    + rewrite (pick_perm _ _ p2 Hp1). rewrite Hlen3. rewrite <- Hlen2 at 1. by rewrite pick_seq_all.
    + rewrite <- pick_pick by done. by rewrite Hl2.
Qed.

Lemma seq_le_sorted a n : StronglySorted le (seq a n).
Proof.
  revert a. induction n as [|n IH]; intros a; simpl; constructor; [done|].
  apply Forall_forall. intros i Hi%elem_of_seq. lia.
Qed.
Lemma reset_index_view_spec h d : wf h d ->
  exists p, p ≡ₚ seq 0 (num_rows d) /\ abs h (reset_index_view d) = t_select p (abs h d) /\
    Sorted le (pick p (inds d)) /\ inds (reset_index_view d) = pick p (inds d) /\
    wf h (reset_index_view d).
Proof.
  intros [n W]. pose proof (wfn_inds_length _ _ _ W) as Hl.
  pose proof (merge_sort_Permutation le (inds d)) as Hp.
  destruct (perm_pick _ _ Hp) as (p & Hps & Hpick). rewrite Hl in Hps.
  exists p. split; [done|].
  assert (inds (reset_index_view d) = pick p (inds d)) as Hi.
  { unfold reset_index_view, inds at 1, ilist; simpl. rewrite firstn_all. by rewrite Hpick. }
  assert (num_rows (reset_index_view d) = num_rows d) as Hn.
  { unfold reset_index_view, num_rows at 1; simpl. by rewrite Hp, Hl. }
  split; [|split; [|split; [done|]]].
  - rewrite <- (abs_select _ _ _ _ W). unfold abs at 1. rewrite Hn, Hi.
    assert (length p = num_rows d) as -> by by rewrite Hps, seq_length. done.
  - rewrite Hpick. apply Sorted_merge_sort, _.
  - exists n. destruct W. split; simpl; try done.
    + rewrite Hi. by apply pick_Forall.
    + intros Hv. destruct (wf_cont Hv) as [Hseq Hnum]. rewrite Hi, Hn. split; [|done].
      rewrite Hpick, Hseq. symmetry. apply (Sorted_unique le).
      * apply StronglySorted_Sorted. apply seq_le_sorted.
      * apply Sorted_merge_sort, _.
      * by rewrite merge_sort_Permutation.
    + by rewrite Hn.
Qed.
End frame.
