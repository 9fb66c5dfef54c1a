(** C105 and C106: the loops of the documentation. *)
From Verif Require Export M_Recipes P_ViewMain P_WriteMain P_Over P_Cells.
From Verif Require Import P_Exec.
From stdpp Require Import strings list.
From Verif Require Import Spec_Recipes Spec_NoCopy P_Base P_Check.

(** ** Overwrite and Set *)
Lemma set_from_write d s vs : forall j h, j + length vs <= length (inds d) ->
  set_from d s j vs h = write_loop s (take (length vs) (drop j (inds d))) vs h.
Proof.
  induction vs as [|v vs IH]; intros j h Hj; [done|]. simpl in Hj.
  destruct (lookup_lt_is_Some_2 (inds d) j) as [i Hi]; [lia|].
  rewrite (drop_S _ _ _ Hi). cbn [set_from length take write_loop].
  assert (E : acc_set d s (Z.of_nat j) v h = sl_wr s i v h).
  { unfold acc_set. rewrite (bind_eq _ _ h i h); [done|]. unfold lift, idx. by rewrite decide_True, Nat2Z.id, Hi by lia. }
  unfold bind. rewrite E. destruct (sl_wr s i v h) as [[[] h1]|]; [|done]. apply IH. lia.
Qed.
Lemma set_from_long d s vs : forall j h, j <= length (inds d) -> length (inds d) < j + length vs -> set_from d s j vs h = Panic.
Proof.
  induction vs as [|v vs IH]; intros j h Hj H; [simpl in H; lia|]. simpl in H. cbn [set_from].
  destruct (decide (j = length (inds d))) as [->|Hn].
  - unfold bind at 1. unfold acc_set, bind, lift, idx. rewrite decide_True, Nat2Z.id by lia.
    rewrite lookup_ge_None_2 by lia. done.
  - unfold bind. destruct (acc_set d s (Z.of_nat j) v h) as [[[] h1]|]; [|done]. apply IH; lia.
Qed.
Lemma write_loop_take s ix : forall vs h, length ix <= length vs -> write_loop s ix vs h = write_loop s ix (take (length ix) vs) h.
Proof.
  induction ix as [|i ix IH]; intros vs h Hl; [done|]. destruct vs as [|v vs]; [simpl in Hl; lia|]. simpl in Hl.
  simpl. unfold bind. destruct (sl_wr s i v h) as [[[] h1]|]; [|done]. apply IH. lia.
Qed.
Lemma set_loop_eq k d c vs h s : mp h (r_maps (d_raw d)) !! (k, c) = Some s -> set_loop k d c vs h = set_from d s 0 vs h.
Proof. intros Hs. unfold set_loop, access, get_mp, bind. by rewrite Hs. Qed.
Lemma shown_slice h d k c col : t_cols (abs h d) !! (k, c) = Some col ->
  exists s, mp h (r_maps (d_raw d)) !! (k, c) = Some s /\ col = pick (inds d) (sl_vals h s).
Proof. rewrite abs_cols_lookup. intros (s & Hs & ->)%fmap_Some. by exists s. Qed.
Lemma rows_slice h d n k s : wfn h d n -> mp h (r_maps (d_raw d)) !! k = Some s -> num_rows d <> 0 -> s_len s <> 0.
Proof.
  intros W Hs Hn. destruct (wfn_col _ _ _ _ _ W Hs) as (Hok & Hl & Hr).
  rewrite <- (wfn_inds_length _ _ _ W) in Hn. destruct (inds d) as [|i ix]; [done|]. apply Forall_cons in Hr as [Hr _].
  rewrite (col_ok_vals_length _ _ _ Hok) in Hr. lia.
Qed.

Lemma C105_same_main : forall (rt : GoRT) k (strs : bool) h d c col vs, wf h d ->
  t_cols (abs h d) !! (k, c) = Some col -> num_rows d <> 0 ->
  Forall (fun v => kind_of v = k) vs -> length vs = num_rows d ->
  exists h', set_loop k d c vs h = Ok (tt, h') /\ overwrite k strs d c vs h = Ok (d, h').
Proof.
  intros rt k strs h d c col vs [n W] Hc Hn Hk Hl. pose proof (wfn_inds_length _ _ _ W) as HL. destruct (shown_slice _ _ _ _ _ Hc) as (s & Hs & _).
  rewrite (set_loop_eq _ _ _ _ _ _ Hs), set_from_write by lia.
  rewrite (overwrite_existing _ _ _ _ _ _ _ _ W Hs (rows_slice _ _ _ _ _ W Hs Hn)).
  rewrite drop_0, take_ge by lia.
  destruct (wfn_col _ _ _ _ _ W Hs) as (Hok & Hsl & Hr). rewrite (col_ok_vals_length _ _ _ Hok) in Hr.
  pose proof (write_loop_spec s k (inds d) vs h Hok Hr Hk) as H.
  destruct (write_loop s (inds d) vs h) as [[[] h']|]; [by exists h'|]. lia.
Qed.
Lemma C105_shorter_main : forall (rt : GoRT) k (strs : bool) h d c col vs, wf h d ->
  t_cols (abs h d) !! (k, c) = Some col -> Forall (fun v => kind_of v = k) vs -> length vs < num_rows d ->
  overwrite k strs d c vs h = Panic /\
  exists h', set_loop k d c vs h = Ok (tt, h') /\ wf h' d /\
    (NoDup (inds d) -> t_cols (abs h' d) !! (k, c) = Some (vs ++ drop (length vs) col)).
Proof.
  intros rt k strs h d c col vs [n W] Hc Hk Hl. pose proof (wfn_inds_length _ _ _ W) as HL. destruct (shown_slice _ _ _ _ _ Hc) as (s & Hs & Hcol).
  rewrite (set_loop_eq _ _ _ _ _ _ Hs), set_from_write by lia.
  rewrite (overwrite_existing _ _ _ _ _ _ _ _ W Hs); [|eapply rows_slice; [done..|lia]].
  destruct (wfn_col _ _ _ _ _ W Hs) as (Hok & Hsl & Hr). pose proof Hr as Hr0.
  rewrite (col_ok_vals_length _ _ _ Hok) in Hr. split.
  { pose proof (write_loop_spec s k (inds d) vs h Hok Hr Hk) as H.
    destruct (write_loop s (inds d) vs h) as [[[] h']|]; [|done]. lia. }
  rewrite drop_0. set (ix := take (length vs) (inds d)).
  assert (Hix : length ix = length vs) by (unfold ix; rewrite take_length; lia).
  assert (Hrx : Forall (fun i => i < s_len s) ix) by (by apply Forall_take).
  pose proof (write_loop_spec s k ix vs h Hok Hrx Hk) as H.
  destruct (write_loop s ix vs h) as [[[] h']|]; [|lia]. destruct H as (_ & Hw & Ho & Hin).
  exists h'. split; [done|]. split; [exists n; by eapply wrt_wfn|]. intros Hd.
  rewrite abs_cols_lookup, (wrt_mp _ _ _ Hw), Hs. simpl. f_equal. subst col.
  assert (Hl1 : length (sl_vals h s) = s_len s) by (by apply (col_ok_vals_length _ (k, c).1)).
  assert (Hok' : col_ok h' k s) by (by eapply wrt_col_ok).
  assert (Hl2 : length (sl_vals h' s) = s_len s) by (by apply (col_ok_vals_length _ (k, c).1)).
  apply list_eq. intros j. rewrite pick_lookup by (by rewrite Hl2).
  destruct (decide (j < length vs)) as [Hj|Hj].
  - rewrite lookup_app_l by done.
    destruct (lookup_lt_is_Some_2 (inds d) j) as [i Hi]; [lia|]. rewrite Hi. simpl.
    assert (Hi2 : ix !! j = Some i) by (unfold ix; by rewrite lookup_take).
    destruct (Hin i) as (v & Hv & Hc2); [by eapply elem_of_list_lookup_2|].
    assert (Hi3 : i < s_len s) by (by eapply Forall_lookup_1 in Hr).
    rewrite sl_vals_lookup by lia. transitivity (Some v); [exact Hc2|]. symmetry.
    eapply last_write_nodup; [|done|done]. rewrite <- (take_drop (length vs)) in Hd. by apply NoDup_app in Hd as [Hd _].
  - rewrite lookup_app_r, lookup_drop by lia. replace (length vs + (j - length vs)) with j by lia.
    rewrite pick_lookup by done. destruct (inds d !! j) as [i|] eqn:Hi; [|done]. simpl.
    assert (Hi3 : i < s_len s) by (by eapply Forall_lookup_1 in Hr).
    rewrite !sl_vals_lookup by lia. apply (Ho (s_arr s, s_off s + i)). intros i2 Hi2 [= E].
    assert (i2 = i) as -> by lia. apply elem_of_list_lookup in Hi2 as [j2 Hi2]. unfold ix in Hi2.
    apply lookup_take_Some in Hi2 as [Hi2 Hj2]. pose proof (NoDup_lookup _ _ _ _ Hd Hi Hi2). lia.
Qed.
Lemma C105_longer_main : forall (rt : GoRT) k (strs : bool) h d c col vs, wf h d ->
  t_cols (abs h d) !! (k, c) = Some col -> num_rows d <> 0 -> Forall (fun v => kind_of v = k) vs ->
  num_rows d < length vs ->
  set_loop k d c vs h = Panic /\
  overwrite k strs d c vs h = overwrite k strs d c (take (num_rows d) vs) h /\
  overwrite k strs d c vs h <> Panic.
Proof.
  intros rt k strs h d c col vs [n W] Hc Hn Hk Hl. pose proof (wfn_inds_length _ _ _ W) as HL. destruct (shown_slice _ _ _ _ _ Hc) as (s & Hs & _).
  rewrite (set_loop_eq _ _ _ _ _ _ Hs), set_from_long by lia. split; [done|].
  pose proof (rows_slice _ _ _ _ _ W Hs Hn) as Hsn.
  rewrite !(overwrite_existing _ _ _ _ _ _ _ _ W Hs Hsn).
  rewrite <- HL. rewrite (write_loop_take s (inds d) vs) by lia. split; [done|].
  destruct (wfn_col _ _ _ _ _ W Hs) as (Hok & Hsl & Hr). rewrite (col_ok_vals_length _ _ _ Hok) in Hr.
  pose proof (write_loop_spec s k (inds d) (take (length (inds d)) vs) h Hok Hr) as H.
  destruct (write_loop s (inds d) (take (length (inds d)) vs) h) as [[[] h']|]; [done|].
  rewrite take_length in H. specialize (H ltac:(by apply Forall_take)). lia.
Qed.
Lemma C105_missing_main : forall k h d c vs, t_cols (abs h d) !! (k, c) = None -> set_loop k d c vs h = Panic.
Proof.
  intros k h d c vs. rewrite abs_cols_lookup, fmap_None. intros H. unfold set_loop, access, get_mp, bind. by rewrite H.
Qed.

(** ** Set(i, f(Get(i))) *)
Lemma forM_snoc {A} (f : A -> M unit) xs y : forall h h0, forM xs f h = Ok (tt, h0) -> forM (xs ++ [y]) f h = f y h0.
Proof.
  induction xs as [|x xs IH]; intros h h0 E.
  - simpl in E. apply ret_ok in E as [_ <-]. simpl. unfold bind. by destruct (f y h) as [[[] ?]|].
  - simpl in *. apply bind_ok in E as (u & h1 & E & E'). destruct u. rewrite (bind_eq _ _ _ _ _ E). by apply IH.
Qed.
Lemma acc_get_at d s j i v h : inds d !! j = Some i -> sl_vals h s !! i = Some v -> acc_get d s (Z.of_nat j) h = Ok (v, h).
Proof.
  intros Hi Hv. unfold acc_get. rewrite (bind_eq _ _ h i h); [|unfold lift, idx; by rewrite decide_True, Nat2Z.id, Hi by lia].
  unfold sl_rd. by rewrite Hv.
Qed.
Lemma cell_of_at h d k s j i : mp h (r_maps (d_raw d)) !! k = Some s -> inds d !! j = Some i ->
  cell_of h d k j = Some (s_arr s, s_off s + i).
Proof. intros Hs Hi. unfold cell_of. by rewrite Hs, Hi. Qed.
Definition times_upto (h : heap) (d : dframe) (k : key) (n : nat) (a : nat * nat) : nat :=
  length (filter (fun j => cell_of h d k j = Some a) (seq 0 n)).
Lemma map_loop_upto h d k c s f : wf h d -> mp h (r_maps (d_raw d)) !! (k, c) = Some s ->
  (forall v, kind_of v = k -> kind_of (f v) = k) -> forall n, n <= num_rows d ->
  exists h', forM (seq 0 n) (fun i => let* v := acc_get d s (Z.of_nat i) in acc_set d s (Z.of_nat i) (f v)) h = Ok (tt, h') /\
    wrt h h' /\ forall a, cell_val h' a = Nat.iter (times_upto h d (k, c) n a) f <$> cell_val h a.
Proof.
  intros [nn W] Hs Hf n. induction n as [|n IH]; intros Hn.
  { exists h. split; [done|]. split; [done|]. intros a. simpl. by destruct (cell_val h a). }
  destruct IH as (h1 & E1 & W1 & C1); [lia|]. rewrite seq_S. rewrite (forM_snoc _ _ _ _ _ E1). simpl.
  pose proof (wfn_inds_length _ _ _ W) as HL. destruct (wfn_col _ _ _ _ _ W Hs) as (Hok & Hsl & Hr).
  destruct (lookup_lt_is_Some_2 (inds d) n) as [i Hi]; [lia|].
  pose proof (Forall_lookup_1 _ _ _ _ Hr Hi) as Hi3. rewrite (col_ok_vals_length _ _ _ Hok) in Hi3. simpl in Hok.
  assert (Hok1 : col_ok h1 k s) by (by eapply wrt_col_ok).
  destruct (col_ok_cell h1 k s i Hok1 Hi3) as (v & Hv & Hk & Ha). set (a0 := (s_arr s, s_off s + i)) in *.
  assert (Hv2 : sl_vals h1 s !! i = Some v) by (rewrite sl_vals_lookup by done; exact Hv).
  rewrite (bind_eq _ _ _ _ _ (acc_get_at _ _ _ _ _ _ Hi Hv2)).
  assert (E2 : acc_set d s (Z.of_nat n) (f v) h1 = Ok (tt, upd h1 a0 (f v))).
  { unfold acc_set. rewrite (bind_eq _ _ h1 i h1); [|unfold lift, idx; by rewrite decide_True, Nat2Z.id, Hi by lia].
    unfold sl_wr. by rewrite decide_True. }
  rewrite E2. eexists. split; [done|].
  assert (W2 : wrt h1 (upd h1 a0 (f v))) by (eapply upd_wrt; [done|rewrite Hk; by apply Hf]).
  split; [by etrans|]. intros b.
  rewrite (upd_cell_val h1 a0 (f v) b); [|done|unfold cell_val in Hv; by apply lookup_lt_Some in Hv].
  unfold times_upto. rewrite seq_S, filter_app, app_length. simpl. rewrite filter_cons, filter_nil.
  rewrite (cell_of_at _ _ _ _ _ _ Hs Hi). fold a0. unfold times_upto in C1.
  destruct (decide (b = a0)) as [->|Hb].
  - rewrite decide_True by done. simpl. rewrite Nat.add_1_r. simpl. specialize (C1 a0). rewrite Hv in C1.
    symmetry in C1. apply fmap_Some in C1 as (w & -> & ->). done.
  - rewrite decide_False by congruence. simpl. rewrite Nat.add_0_r. apply C1.
Qed.
Lemma C105_map_main : forall h d k c col f, wf h d -> t_cols (abs h d) !! (k, c) = Some col ->
  (forall v, kind_of v = k -> kind_of (f v) = k) ->
  exists h', map_loop k d c f h = Ok (tt, h') /\
    (forall d2, wf h d2 -> wf h' d2 /\ same_shape (abs h d2) (abs h' d2) /\
      forall k2 j a, cell_of h d2 k2 j = Some a ->
      t_cell (abs h' d2) k2 j = Nat.iter (times_at h d (k, c) a) f <$> t_cell (abs h d2) k2 j) /\
    (NoDup (inds d) -> t_cols (abs h' d) !! (k, c) = Some (f <$> col)).
Proof.
  intros h d k c col f W Hc Hf. destruct (shown_slice _ _ _ _ _ Hc) as (s & Hs & Hcol).
  destruct (map_loop_upto h d k c s f W Hs Hf (num_rows d)) as (h' & E & Hw & C); [lia|]. exists h'. split.
  { unfold map_loop, access, get_mp. unfold bind at 1 2. rewrite Hs. exact E. }
  split.
  { intros d2 W2. split; [by eapply wrt_wf|]. split; [by apply wrt_shape|]. intros k2 j a Ha.
    rewrite (t_cell_abs h' d2) by (by eapply wrt_wf). rewrite (t_cell_abs h d2) by done.
    rewrite (wrt_cell_of _ _ _ _ _ Hw), Ha. simpl. apply C. }
  intros Hd. rewrite abs_cols_lookup, (wrt_mp _ _ _ Hw), Hs. simpl. f_equal. subst col.
  destruct W as [n W]. destruct (wfn_col _ _ _ _ _ W Hs) as (Hok & Hsl & Hr). simpl in Hok.
  assert (Hl1 : length (sl_vals h s) = s_len s) by (by apply (col_ok_vals_length _ (k, c).1)).
  assert (Hok' : col_ok h' k s) by (by eapply wrt_col_ok).
  assert (Hl2 : length (sl_vals h' s) = s_len s) by (by apply (col_ok_vals_length _ (k, c).1)).
  apply list_eq. intros j. rewrite list_lookup_fmap. rewrite !pick_lookup; [|done|by rewrite Hl2, <- Hl1].
  destruct (inds d !! j) as [i|] eqn:Hi; [|done]. simpl.
  pose proof (Forall_lookup_1 _ _ _ _ Hr Hi) as Hi3. rewrite Hl1 in Hi3. simpl in Hi3.
  rewrite !sl_vals_lookup by done. etrans; [apply (C (s_arr s, s_off s + i))|]. unfold cell_val. simpl.
  replace (times_upto h d (k, c) (num_rows d) (s_arr s, s_off s + i)) with 1; [done|].
  unfold times_upto. symmetry.
  assert (Hjn : j < num_rows d) by (rewrite <- (wfn_inds_length _ _ _ W); by eapply lookup_lt_Some).
  assert (Hp : filter (fun j2 => cell_of h d (k, c) j2 = Some (s_arr s, s_off s + i)) (seq 0 (num_rows d)) ≡ₚ [j]).
  { apply NoDup_Permutation; [apply NoDup_filter, NoDup_seq|apply NoDup_singleton|]. intros x.
    rewrite elem_of_list_filter, elem_of_list_singleton, elem_of_seq. split.
    - intros [Hx _]. unfold cell_of in Hx. rewrite Hs in Hx. simpl in Hx.
      destruct (inds d !! x) as [i2|] eqn:Hx2; [|done]. injection Hx as Hx. assert (i2 = i) as -> by lia.
      by eapply NoDup_lookup.
    - intros ->. split; [by apply cell_of_at|lia]. }
  by rewrite Hp.
Qed.

(** ** Filters *)
Lemma in_rows_where p col i : i ∈ rows_where p col <-> p <$> col !! i = Some true.
Proof.
  unfold rows_where. rewrite elem_of_list_filter, elem_of_seq. split; [tauto|]. intros H. split; [done|].
  destruct (col !! i) as [v|] eqn:E; [|done]. apply lookup_lt_Some in E. lia.
Qed.
Lemma seq_ss n : forall a, StronglySorted lt (seq a n).
Proof.
  induction n as [|n IH]; intros a; simpl; constructor; [done|]. apply Forall_forall. intros x Hx%elem_of_seq. lia.
Qed.
Lemma rows_where_sorted p col : StronglySorted lt (rows_where p col).
Proof.
  unfold rows_where. generalize (seq_ss (length col) 0). generalize (seq 0 (length col)). intros l.
  induction 1 as [|x l Hl IH Hx]; [constructor|]. rewrite filter_cons. case_decide; [|done]. constructor; [done|].
  apply Forall_forall. intros y [_ Hy]%elem_of_list_filter. by eapply Forall_forall in Hy.
Qed.
Lemma ss_eq (l1 l2 : list nat) : StronglySorted lt l1 -> StronglySorted lt l2 -> (forall i, i ∈ l1 <-> i ∈ l2) -> l1 = l2.
Proof.
  assert (Hnd : forall l : list nat, StronglySorted lt l -> NoDup l).
  { intros l. induction 1 as [|x l Hl IH Hx]; constructor; [|done]. intros Hin. eapply Forall_forall in Hin; [|done]. simpl in Hin. lia. }
  assert (Has : AntiSymm (=) lt) by (intros x y ??; lia).
  intros H1 H2 H. apply (StronglySorted_unique lt); [done..|]. apply NoDup_Permutation; eauto.
Qed.
Lemma true_positions_where p col : true_positions (p <$> col) = rows_where p col.
Proof.
  apply ss_eq; [apply (C04_true_positions_main _ 0)|apply rows_where_sorted|]. intros i.
  rewrite in_rows_where, (proj2 (C04_true_positions_main _ i)). by rewrite list_lookup_fmap.
Qed.

Lemma sl_vals_arr h h' s : h_arr h' = h_arr h -> sl_vals h' s = sl_vals h s.
Proof. intros E. unfold sl_vals, arr. by rewrite E. Qed.
Lemma mask_length h m : mask_ok h m -> length (msl_vals h m) = s_len m.
Proof. intros [H1 H2]. unfold msl_vals. rewrite take_length, drop_length. lia. Qed.
Lemma fill_upto h d k c s col p m : wf h d -> mp h (r_maps (d_raw d)) !! (k, c) = Some s -> col = pick (inds d) (sl_vals h s) ->
  mask_ok h m -> s_len m = num_rows d -> forall n, n <= num_rows d ->
  exists h', forM (seq 0 n) (fun i => let* v := acc_get d s (Z.of_nat i) in msl_wr m i (p v)) h = Ok (tt, h') /\ ext h h' /\
    h_arr h' = h_arr h /\ h_map h' = h_map h /\ (forall l, length (marr h' l) = length (marr h l)) /\
    take n (msl_vals h' m) = p <$> take n col.
Proof.
  intros [nn W] Hs -> Hm Hl n. induction n as [|n IH]; intros Hn.
  { exists h. repeat (split; [done|]). done. }
  destruct IH as (h1 & E1 & X1 & A1 & A2 & A5 & A6); [lia|].
  assert (Hm1 : mask_ok h1 m) by (destruct Hm; split; [done|]; by rewrite A5).
  pose proof (wfn_inds_length _ _ _ W) as HL. destruct (wfn_col _ _ _ _ _ W Hs) as (Hok & Hsl & Hr).
  destruct (lookup_lt_is_Some_2 (inds d) n) as [i Hi]; [lia|].
  pose proof (Forall_lookup_1 _ _ _ _ Hr Hi) as Hi3. simpl in Hi3.
  destruct (lookup_lt_is_Some_2 _ _ Hi3) as [v Hv].
  assert (Hv1 : sl_vals h1 s !! i = Some v) by (by rewrite (sl_vals_arr _ _ _ A1)).
  destruct (msl_wr_spec m n (p v) h1 Hm1) as (h2 & E2 & X2 & B1 & B2 & B3 & B4 & _ & B5 & B6); [lia|].
  exists h2. rewrite seq_S, (forM_snoc _ _ _ _ _ E1). simpl.
  rewrite (bind_eq _ _ _ _ _ (acc_get_at _ _ _ _ _ _ Hi Hv1)), E2.
  split; [done|]. split; [by etrans|]. split; [congruence|]. split; [congruence|]. split; [intros l; by rewrite B5|].
  pose proof (mask_length _ _ Hm1) as Hml. rewrite B6, (take_S_r _ n (p v)); [|apply list_lookup_insert; lia].
  rewrite take_insert by lia. rewrite A6. rewrite (take_S_r _ n v); [by rewrite fmap_app|].
  rewrite pick_lookup by done. by rewrite Hi.
Qed.
Lemma col_rows h d k c col : wf h d -> t_cols (abs h d) !! (k, c) = Some col -> length col = num_rows d.
Proof.
  intros [n W] Hc. destruct (shown_slice _ _ _ _ _ Hc) as (s & Hs & ->).
  destruct (wfn_col _ _ _ _ _ W Hs) as (Hok & Hsl & Hr). rewrite pick_length by done. by eapply wfn_inds_length.
Qed.
Lemma C106_mask_main : forall (rt : GoRT) h d k c col p, wf h d -> t_cols (abs h d) !! (k, c) = Some col ->
  exists v h', filter_mask k d c p h = Ok (v, h') /\ wf h' v /\
    abs h' v = t_select (rows_where p col) (abs h d) /\ preserved h h'.
Proof.
  intros rt h d k c col p W Hc. destruct (shown_slice _ _ _ _ _ Hc) as (s & Hs & Hcol).
  destruct (empty_mask_spec h d W) as (m & h1 & E1 & P1 & A1 & A2 & A3 & A4).
  destruct (P1 d W) as [W1 Q1].
  assert (Hs1 : mp h1 (r_maps (d_raw d)) !! (k, c) = Some s) by (unfold mp in *; by rewrite A2).
  destruct (fill_upto h1 d k c s col p m W1 Hs1) with (n := num_rows d) as (h2 & E2 & X2 & B1 & B2 & B3 & B4); [by rewrite (sl_vals_arr _ _ _ A1)|done..|].
  pose proof (col_rows _ _ _ _ _ W Hc) as HL.
  assert (Hv : msl_vals h2 m = p <$> col).
  { rewrite !take_ge in B4; [done|lia|]. unfold msl_vals. rewrite take_length. lia. }
  assert (W2 : wf h2 d) by (by eapply ext_wf).
  pose proof (C04_mask_view_rows_main rt h2 d (p <$> col) W2) as HM. rewrite true_positions_where in HM.
  assert (E : filter_mask k d c p h = mask_view d (p <$> col) h2).
  { unfold filter_mask. rewrite (bind_eq _ _ _ _ _ E1).
    assert (E3 : fill_mask k d c p m h1 = Ok (tt, h2)).
    { unfold fill_mask, access, get_mp. unfold bind at 1 2. rewrite Hs1. exact E2. }
    rewrite (bind_eq _ _ _ _ _ E3). unfold read_mask, bind. by rewrite Hv. }
  rewrite E. destruct (mask_view d (p <$> col) h2) as [[v h']|].
  - destruct HM as (_ & HA & HW & ->). exists v, h2. split; [done|]. split; [done|].
    assert (HP : preserved h h2) by (eapply preserved_trans; [done|by apply ext_preserved]).
    split; [|done]. rewrite HA. by rewrite (proj2 (HP d W)).
  - exfalso. apply Exists_exists in HM as (i & Hi & Hge). apply in_rows_where in Hi.
    destruct (col !! i) eqn:Ei; [|done]. apply lookup_lt_Some in Ei. lia.
Qed.
Lemma collect_eq h d k c s p : wf h d -> mp h (r_maps (d_raw d)) !! (k, c) = Some s -> forall is,
  Forall (fun i => i < num_rows d) is ->
  collect d s p is h = Ok (Z.of_nat <$> filter (fun i => p <$> pick (inds d) (sl_vals h s) !! i = Some true) is, h).
Proof.
  intros [nn W] Hs is. pose proof (wfn_inds_length _ _ _ W) as HL. destruct (wfn_col _ _ _ _ _ W Hs) as (Hok & Hsl & Hr).
  induction is as [|j is IH]; intros Hf; [done|]. apply Forall_cons in Hf as [Hj Hf]. cbn [collect].
  destruct (lookup_lt_is_Some_2 (inds d) j) as [i Hi]; [lia|].
  pose proof (Forall_lookup_1 _ _ _ _ Hr Hi) as Hi3. simpl in Hi3.
  destruct (lookup_lt_is_Some_2 _ _ Hi3) as [v Hv].
  rewrite (bind_eq _ _ _ _ _ (acc_get_at _ _ _ _ _ _ Hi Hv)), (bind_eq _ _ _ _ _ (IH Hf)).
  rewrite filter_cons, pick_lookup, Hi by done. simpl. rewrite Hv. simpl.
  destruct (p v) eqn:Ep; [by rewrite decide_True|by rewrite decide_False].
Qed.
Lemma C106_index_main : forall (rt : GoRT) h d k c col p, wf h d -> t_cols (abs h d) !! (k, c) = Some col ->
  exists v h', filter_index k d c p h = Ok (v, h') /\ wf h' v /\
    abs h' v = t_select (rows_where p col) (abs h d) /\ preserved h h'.
Proof.
  intros rt h d k c col p W Hc. destruct (shown_slice _ _ _ _ _ Hc) as (s & Hs & Hcol).
  pose proof (col_rows _ _ _ _ _ W Hc) as HL.
  assert (E : filter_index k d c p h = index_view d (Z.of_nat <$> rows_where p col) h).
  { unfold filter_index. rewrite (bind_eq _ _ h s h) by (unfold access, get_mp, bind; by rewrite Hs).
    rewrite (bind_eq _ _ _ _ _ (collect_eq h d k c s p W Hs (seq 0 (num_rows d)) ltac:(apply Forall_forall; intros i Hi%elem_of_seq; lia))).
    unfold rows_where. by rewrite HL, Hcol. }
  rewrite E. pose proof (index_view_spec h d (Z.of_nat <$> rows_where p col) W) as H.
  destruct (index_view d (Z.of_nat <$> rows_where p col) h) as [[v h']|].
  - destruct H as (_ & HA & HW & X & _). exists v, h'. split; [done|]. split; [done|]. split; [|by apply ext_preserved].
    rewrite HA. f_equal. rewrite <- list_fmap_compose. rewrite <- (list_fmap_id (rows_where p col)) at 2.
    apply list_fmap_ext. intros _ i _. simpl. apply Nat2Z.id.
  - exfalso. apply Exists_exists in H as (z & Hz & Hge). apply elem_of_list_fmap in Hz as (i & -> & Hi). apply in_rows_where in Hi.
    destruct (col !! i) eqn:Ei; [|done]. apply lookup_lt_Some in Ei. lia.
Qed.

Lemma mark_upto h d (q : nat -> bool) m : mask_ok h m -> s_len m = num_rows d -> msl_vals h m = replicate (num_rows d) false -> forall n, n <= num_rows d ->
  exists h', forM (seq 0 n) (fun i => if q i then msl_wr m i true else ret tt) h = Ok (tt, h') /\ ext h h' /\
    (forall l, length (marr h' l) = length (marr h l)) /\
    msl_vals h' m = (q <$> seq 0 n) ++ replicate (num_rows d - n) false.
Proof.
  intros Hm Hl Hz n. induction n as [|n IH]; intros Hn.
  { exists h. split; [done|]. split; [done|]. split; [done|]. simpl. by rewrite Nat.sub_0_r. }
  destruct IH as (h1 & E1 & X1 & A5 & A6); [lia|].
  assert (Hm1 : mask_ok h1 m) by (destruct Hm; split; [done|]; by rewrite A5).
  rewrite seq_S, (forM_snoc _ _ _ _ _ E1), fmap_app. simpl.
  assert (Hr : replicate (num_rows d - n) false = false :: replicate (num_rows d - S n) false).
  { replace (num_rows d - n) with (S (num_rows d - S n)) by lia. done. }
  destruct (q n) eqn:Eq.
  - destruct (msl_wr_spec m n true h1 Hm1) as (h2 & E2 & X2 & B1 & B2 & B3 & B4 & _ & B5 & B6); [lia|].
    exists h2. split; [done|]. split; [by etrans|]. split; [intros l; by rewrite B5|].
    rewrite B6, A6, Hr. rewrite insert_app_r_alt by (rewrite fmap_length, seq_length; lia).
    rewrite fmap_length, seq_length, Nat.sub_diag. simpl. by rewrite <- app_assoc.
  - exists h1. split; [done|]. split; [done|]. split; [done|]. rewrite A6, Hr. by rewrite <- app_assoc.
Qed.
Lemma C106_zero_mask_main : forall (rt : GoRT) h d (q : nat -> bool), wf h d ->
  exists v h', zero_mask_view d q h = Ok (v, h') /\ wf h' v /\
    abs h' v = t_select (filter (fun i => q i = true) (seq 0 (num_rows d))) (abs h d) /\ preserved h h'.
Proof.
  intros rt h d q W. destruct (zero_mask_spec h d W) as (m & h1 & E1 & P1 & A1 & A2 & A3 & A4).
  destruct (P1 d W) as [W1 Q1].
  assert (Hl : s_len m = num_rows d) by (rewrite <- (mask_length _ _ A3), A4; apply replicate_length).
  destruct (mark_upto h1 d q m A3 Hl A4 (num_rows d)) as (h2 & E2 & X2 & B5 & B6); [lia|].
  rewrite Nat.sub_diag, app_nil_r in B6.
  assert (W2 : wf h2 d) by (by eapply ext_wf).
  assert (Ht : true_positions (q <$> seq 0 (num_rows d)) = filter (fun i => q i = true) (seq 0 (num_rows d))).
  { apply ss_eq; [apply (C04_true_positions_main _ 0)| |].
    - generalize (seq_ss (num_rows d) 0). generalize (seq 0 (num_rows d)). intros l.
      induction 1 as [|x l Hl2 IH Hx]; [constructor|]. rewrite filter_cons. case_decide; [|done]. constructor; [done|].
      apply Forall_forall. intros y [_ Hy]%elem_of_list_filter. by eapply Forall_forall in Hy.
    - intros i. rewrite (proj2 (C04_true_positions_main _ i)), elem_of_list_filter, elem_of_seq, list_lookup_fmap.
      destruct (decide (i < num_rows d)) as [Hi|Hi].
      + rewrite lookup_seq_lt by done. simpl. split; [intros [= ->]; split; [done|lia]|by intros [-> _]].
      + rewrite lookup_seq_ge by lia. simpl. split; [done|lia]. }
  pose proof (C04_mask_view_rows_main rt h2 d (q <$> seq 0 (num_rows d)) W2) as HM. rewrite Ht in HM.
  assert (E : zero_mask_view d q h = mask_view d (q <$> seq 0 (num_rows d)) h2).
  { unfold zero_mask_view. rewrite (bind_eq _ _ _ _ _ E1).
    assert (E3 : mark_rows d q m h1 = Ok (tt, h2)) by exact E2.
    rewrite (bind_eq _ _ _ _ _ E3). unfold read_mask, bind. by rewrite B6. }
  rewrite E. destruct (mask_view d (q <$> seq 0 (num_rows d)) h2) as [[v h']|].
  - destruct HM as (_ & HA & HW & ->). exists v, h2. split; [done|]. split; [done|].
    assert (HP : preserved h h2) by (eapply preserved_trans; [done|by apply ext_preserved]).
    split; [|done]. rewrite HA. by rewrite (proj2 (HP d W)).
  - exfalso. apply Exists_exists in HM as (i & [_ Hi%elem_of_seq]%elem_of_list_filter & Hge). lia.
Qed.

(** ** Masks of two dataframes *)
Lemma C106_fresh_main : forall h d m h', wf h d -> d_mts d = true -> empty_mask d h = Ok (m, h') ->
  s_len m = num_rows d /\ (forall m0, mask_ok h m0 -> ~ overlap m0 m) /\
  forall i b h2, msl_wr m i b h' = Ok (tt, h2) -> forall m0, mask_ok h m0 -> s_len m0 <> 0 -> msl_vals h2 m0 = msl_vals h m0.
Proof.
  intros h d m h' W Ht. unfold empty_mask. rewrite Ht. intros [= <- <-].
  assert (Hlt : forall m0, mask_ok h m0 -> s_len m0 <> 0 -> s_arr m0 < length (h_mask h)).
  { intros m0 [H1 H2] H0. destruct (decide (s_arr m0 < length (h_mask h))) as [|Hge]; [done|].
    unfold marr in H2. rewrite lookup_ge_None_2 in H2 by lia. simpl in H2. lia. }
  split; [done|]. split.
  - intros m0 Hm0 (Ha & i & j & Hi & Hj & _). specialize (Hlt m0 Hm0). simpl in Ha. lia.
  - intros i b h2. unfold msl_wr. case_decide; [|done]. intros [= <-] m0 Hm0 H0. specialize (Hlt m0 Hm0 H0).
    unfold msl_vals, marr. simpl. rewrite list_lookup_insert_ne by lia. by rewrite lookup_app_l.
Qed.
Lemma C106_recycled_main : forall h d m h', wf h d -> d_mts d = false -> num_rows d <> 0 -> empty_mask d h = Ok (m, h') ->
  h' = h /\ s_arr m = s_arr (d_mask d) /\ s_off m = s_off (d_mask d) /\ empty_mask d h' = Ok (m, h').
Proof.
  intros h d m h' W Ht Hn. unfold empty_mask. rewrite Ht. unfold mask_prefix. case_decide; [|done].
  intros [= <- <-]. done.
Qed.

(** What a computation gives when it succeeds. *)
Definition gives {A} (P : A -> Prop) (m : M A) : Prop := forall h a h', m h = Ok (a, h') -> P a.
Lemma gives_ret {A} (P : A -> Prop) a : P a -> gives P (ret a).
Proof. intros H h a' h' [= <- _]. done. Qed.
Lemma gives_panic {A} (P : A -> Prop) : gives P panic.
Proof. by intros h a h'. Qed.
Lemma gives_bind {A B} (P : B -> Prop) (m : M A) (f : A -> M B) : (forall a, gives P (f a)) -> gives P (bind m f).
Proof. intros Hf h b h' (a & h1 & E1 & E2)%bind_ok. by eapply Hf. Qed.
Lemma gives_bind2 {A B} (Q : A -> Prop) (P : B -> Prop) (m : M A) (f : A -> M B) :
  gives Q m -> (forall a, Q a -> gives P (f a)) -> gives P (bind m f).
Proof. intros Hm Hf h b h' (a & h1 & E1 & E2)%bind_ok. eapply Hf; [|exact E2]. by eapply Hm. Qed.
Ltac gv := repeat first [match goal with |- gives _ (bind _ _) => apply gives_bind; intros ? end | apply gives_ret; done | apply gives_panic].
Section inherit.
Context {rt : GoRT}.
Local Notation same d := (fun v => d_mts v = d_mts d).
Lemma same_index d l : gives (same d) (index_view d l).
Proof. unfold index_view. gv. Qed.
Lemma same_cut d a b : gives (same d) (cut d a b).
Proof. unfold cut. gv. destruct (_ || _); gv. case_decide; gv. Qed.
Lemma same_slice d a b : gives (same d) (slice_view d a b).
Proof. unfold slice_view. cbv zeta. case_decide; case_decide; case_decide;
  first [exact (same_cut (view (reverse_view d)) _ _) | exact (same_cut (view d) _ _)]. Qed.
Lemma same_mask d m : gives (same d) (mask_view d m).
Proof. unfold mask_view. gv. Qed.
Lemma same_columns d cs : gives (same d) (column_view d cs).
Proof. unfold column_view. case_decide; gv. Qed.
Lemma same_shallow d : gives (same d) (shallow_copy d).
Proof. unfold shallow_copy. gv. Qed.
Lemma same_sorted f d c : gives (same d) (sorted_view f d c).
Proof. unfold sorted_view. gv. destruct (_ !! _); gv; apply same_index. Qed.
Lemma same_top f d c n a s : gives (same d) (top_view f d c n a s).
Proof.
  unfold top_view. cbv zeta. destruct (top_view_self d n s); [gv|]. case_decide; case_decide; try apply gives_panic.
  all: apply (gives_bind2 (same d)); [apply same_sorted|intros v Hv]; destruct a; gv; apply gives_ret; by destruct s.
Qed.
Lemma same_split d n : forall i b, gives (fun vs => forall v, v ∈ vs -> d_mts v = d_mts d) (split_loop d n i b).
Proof.
  induction n as [|n IH]; intros i b; cbn [split_loop]; [apply gives_ret; intros v Hv; by apply elem_of_nil in Hv|].
  destruct n as [|n].
  - apply (gives_bind2 (same d)); [exact (same_cut (view d) _ _)|intros v Hv]. apply gives_ret. intros w ->%elem_of_list_singleton. done.
  - apply (gives_bind2 (same d)); [exact (same_cut (view d) _ _)|intros v Hv].
    apply (gives_bind2 (fun vs => forall v, v ∈ vs -> d_mts v = d_mts d)); [apply IH|intros r Hr].
    apply gives_ret. intros w [-> | Hw]%elem_of_cons; [done|by apply Hr].
Qed.
Lemma same_split_view d b : gives (fun vs => forall v, v ∈ vs -> d_mts v = d_mts d) (split_view d b).
Proof.
  unfold split_view. case_decide; [gv|]. cbv zeta. destruct (decide (_ <= 1)%Z); [|apply same_split].
  apply gives_ret. intros w ->%elem_of_list_singleton. done.
Qed.
Lemma same_one d m : gives (same d) m -> gives (fun vs => forall v, v ∈ vs -> d_mts v = d_mts d \/ num_rows v = 0) (one m).
Proof.
  intros H. unfold one. apply (gives_bind2 (same d)); [done|intros v Hv]. apply gives_ret.
  intros w ->%elem_of_list_singleton. by left.
Qed.
Lemma C106_inherited_main d c h vs h' : run_view d c h = Ok (vs, h') ->
  forall v, v ∈ vs -> d_mts v = d_mts d \/ num_rows v = 0.
Proof.
  revert h vs h'. change (gives (fun vs => forall v, v ∈ vs -> d_mts v = d_mts d \/ num_rows v = 0) (run_view d c)).
  destruct c; cbn [run_view].
  - apply gives_ret. intros v ->%elem_of_list_singleton. by left.
  - apply same_one, same_index.
  - apply same_one, same_slice.
  - apply same_one, same_mask.
  - apply same_one, same_columns.
  - apply same_one, same_index.
  - apply same_one. unfold sample_view. destruct replacement; [gv|]. case_decide; [gv|].
    apply (gives_bind2 (same d)); [apply same_index|intros v Hv]. gv.
  - unfold split_n_view. destruct (decide _); [gv|]. destruct (decide _); [apply gives_ret; intros v Hv; by apply elem_of_nil in Hv|].
    destruct (decide _); [apply gives_ret; intros v ->%elem_of_list_singleton; by left|]. cbv zeta.
    apply (gives_bind2 (fun vs => forall v, v ∈ vs -> d_mts v = d_mts d)); [apply same_split_view|intros r Hr].
    destruct (decide _); [|apply gives_ret; intros v Hv; left; by apply Hr].
    apply (gives_bind2 (fun e => num_rows e = 0)).
    + unfold empty_df. gv.
    + intros e He. apply gives_ret. intros v [Hv|[-> _]%elem_of_replicate]%elem_of_app; [left; by apply Hr|by right].
  - intros h vs h' H v Hv. left. by apply (same_split_view d b h vs h' H).
  - unfold split_train_test. intros h vs h' H v Hv. left. apply bind_ok in H as (p & h1 & E & [= <- _]). revert E.
    destruct (_ || _); [done|]. cbv zeta. intros (x & h2 & E1 & (y & h3 & E2 & [= <- _])%bind_ok)%bind_ok.
    apply elem_of_cons in Hv as [-> | ->%elem_of_list_singleton]; simpl.
    + by apply same_slice in E1.
    + by apply same_slice in E2.
  - apply same_one, same_sorted.
  - apply same_one, same_top.
  - apply gives_ret. intros v ->%elem_of_list_singleton. by left.
  - apply gives_ret. intros v ->%elem_of_list_singleton. by left.
  - apply same_one, same_shallow.
  - apply (gives_bind2 (fun o => forall v, o = Some v -> d_mts v = d_mts d)).
    + unfold column_concat_view. apply gives_bind; intros ms. destruct (negb _); [gv|]. cbv zeta. destruct (_ && _); [gv|].
      apply (gives_bind2 (same d)); [apply same_shallow|intros v Hv]. apply gives_bind; intros r. apply gives_ret. by intros ? [= <-].
    + intros [v|] Hv; apply gives_ret; [|intros v H; by apply elem_of_nil in H].
      intros w ->%elem_of_list_singleton. left. by apply Hv.
Qed.
End inherit.

(** ** Cases *)
Section wit.
Existing Instance ex_rt.
Definition ten_rows : dframe * heap := run_df (let* r := new_raw in
  let* r := b_add KInt r "age" [VInt 12; VInt 40; VInt 18; VInt 7; VInt 33] in
  let* r := b_add KObj r "name" [VObj (OStr "a"); VObj (OStr "b"); VObj (OStr "c"); VObj (OStr "d"); VObj (OStr "e")] in to_dataframe r) heap0.
Definition adult (v : val) : bool := match v with VInt z => bool_decide (18 <= z)%Z | _ => false end.
Definition twice (v : val) : val := match v with VInt z => VInt (2 * z) | _ => v end.
Definition col_of (c : key) (m : M dframe) (h : heap) : option (list val) :=
  match m h with Ok (v, h') => t_cols (abs h' v) !! c | Panic => None end.
Definition twice_shown : dframe * heap := run_df (index_view ten_rows.1 [1; 0; 1]%Z) ten_rows.2.
Definition after_twice : heap := run_unit (map_loop KInt twice_shown.1 "age" twice) twice_shown.2.
Lemma C105_check_main : wf ten_rows.2 ten_rows.1 /\ wf twice_shown.2 twice_shown.1 /\
  t_cols (abs after_twice twice_shown.1) !! (KInt, "age") = Some [VInt 160; VInt 24; VInt 160] /\
  t_cols (abs after_twice ten_rows.1) !! (KInt, "age") = Some [VInt 24; VInt 160; VInt 18; VInt 7; VInt 33] /\
  NoDup (inds ten_rows.1) /\ num_rows ten_rows.1 = 5.
Proof.
  split; [apply (wf_check_sound _ _ 5); by vm_compute|]. split; [apply (wf_check_sound _ _ 5); by vm_compute|].
  split; [by vm_compute|]. split; [by vm_compute|]. split; [apply (bool_decide_unpack _); by vm_compute|by vm_compute].
Qed.
Lemma C105_doc_refuted_main : exists (rt : GoRT) h d c vs ws, wf h d /\ is_Some (t_cols (abs h d) !! (KInt, c)) /\
  set_loop KInt d c vs h <> Panic /\ overwrite KInt false d c vs h = Panic /\
  set_loop KInt d c ws h = Panic /\ overwrite KInt false d c ws h <> Panic.
Proof.
  exists ex_rt, ten_rows.2, ten_rows.1, "age", [VInt 1], [VInt 1; VInt 2; VInt 3; VInt 4; VInt 5; VInt 6].
  split; [apply (wf_check_sound _ _ 5); by vm_compute|]. split; [apply (bool_decide_unpack _); by vm_compute|].
  split; [by vm_compute|]. split; [by vm_compute|]. split; by vm_compute.
Qed.
Lemma C106_check_main : wf ten_rows.2 ten_rows.1 /\
  col_of (KObj, "name") (filter_mask KInt ten_rows.1 "age" adult) ten_rows.2 = Some [VObj (OStr "b"); VObj (OStr "c"); VObj (OStr "e")] /\
  col_of (KObj, "name") (filter_index KInt ten_rows.1 "age" adult) ten_rows.2 = Some [VObj (OStr "b"); VObj (OStr "c"); VObj (OStr "e")] /\
  col_of (KObj, "name") (zero_mask_view ten_rows.1 (fun i => bool_decide (i mod 3 = 0))) ten_rows.2 = Some [VObj (OStr "a"); VObj (OStr "d")] /\
  d_mts ten_rows.1 = false /\ d_mts (thread_safe_masking ten_rows.1 true) = true.
Proof.
  split; [apply (wf_check_sound _ _ 5); by vm_compute|]. split; [by vm_compute|]. split; [by vm_compute|]. split; [by vm_compute|]. by vm_compute.
Qed.
(** Two conditions, the second on a view of the first dataframe: the masks share
    their places and the first condition is lost. *)
Definition two_masks : M (list bool * list bool) :=
  let d := ten_rows.1 in
  let* m1 := empty_mask d in
  fill_mask KInt d "age" adult m1 ;;*
  let* b1 := read_mask m1 in
  let* m2 := empty_mask (view d) in
  fill_mask KInt d "age" (fun v => negb (adult v)) m2 ;;*
  let* b2 := read_mask m1 in ret (b1, b2).
Lemma C106_shared_refuted_main : exists h d m1 m2 h2, wf h d /\ d_mts d = false /\
  empty_mask d h = Ok (m1, h) /\ empty_mask (view d) h = Ok (m2, h) /\ overlap m1 m2 /\
  msl_wr m2 0 true h = Ok (tt, h2) /\ msl_vals h2 m1 <> msl_vals h m1.
Proof.
  destruct (empty_mask ten_rows.1 ten_rows.2) as [[m h0]|] eqn:E; [|by vm_compute in E].
  exists ten_rows.2, ten_rows.1, m, m. vm_compute in E. injection E as <- <-. eexists.
  split; [apply (wf_check_sound _ _ 5); by vm_compute|]. split; [by vm_compute|]. split; [by vm_compute|]. split; [by vm_compute|].
  split. { split; [done|]. exists 0, 0. cbn. lia. }
  split; [reflexivity|by vm_compute].
Qed.
Lemma C106_two_masks_check_main : option_map fst (match two_masks ten_rows.2 with Ok p => Some p | Panic => None end) =
  Some ([false; true; true; false; true], [true; false; false; true; false]).
Proof. by vm_compute. Qed.
End wit.
