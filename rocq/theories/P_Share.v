(** ShallowCopy, Unshare in general, masks. *)
From Verif Require Export P_Over.

Section frame.
Context {rt : GoRT}.

(** ** ShallowCopy *)
Lemma shallow_copy_spec h d : wf h d ->
  exists v h', shallow_copy d h = Ok (v, h') /\ ext h h' /\ h_arr h' = h_arr h /\ wf h' v /\
    abs h' v = Table (num_rows d) (t_cols (abs h d)) (t_strs (abs h d)) None (t_cpu (abs h d)) /\
    r_maps (d_raw v) = length (h_map h) /\ length (h_map h') = S (length (h_map h)) /\
    mp h' (r_maps (d_raw v)) = mp h (r_maps (d_raw d)) /\
    oshr h' (r_shared (d_raw v)) = names (mp h (r_maps (d_raw d))) /\
    r_sharedMaps (d_raw v) = false /\ d_ind v = d_ind d /\ d_viewed v = d_viewed d.
Proof.
  intros [n W]. unfold shallow_copy, empty_df.
  set (h1 := Heap (h_arr h) (h_mask h) (h_map h ++ [∅]) (h_str h) (h_shr h)).
  set (e := DF (Raw (length (h_map h)) None false None (r_cpu (d_raw d)) None) (mk_ind []) nil_slice false false).
  rewrite (bind_eq _ _ h e h1) by done.
  assert (Hlen : length (h_map h1) = S (length (h_map h))) by (simpl; rewrite app_length; simpl; lia).
  assert (Hmp : mp h1 (r_maps (d_raw d)) = mp h (r_maps (d_raw d))).
  { unfold mp, h1. simpl. rewrite lookup_app_l; [done|apply W]. }
  destruct (transfer_fresh_spec (d_raw e) (d_raw d) h1)
    as (r' & h' & E & A1 & A2 & A3 & A4 & A5 & A6 & A7 & A8 & A9 & A10 & A11 & A12 & A13 & A14 & A15).
  { rewrite Hlen. simpl. lia. }
  { intros H%(f_equal length). rewrite Hlen in H. simpl in H. lia. }
  { apply mp_new. } { done. } { done. }
  { rewrite Hlen. pose proof (wf_map _ _ _ W). lia. }
  unfold transfer_raw. unfold own_maps at 1. cbn [r_sharedMaps d_raw e].
  assert (E' : (let* data := ret (d_raw e) in transfer_loops data (d_raw d)) h1 = Ok (r', h')) by exact E.
  rewrite (bind_eq _ _ _ _ _ E').
  assert (X : ext h h').
  { split.
    - by rewrite A1.
    - rewrite Hlen in A4. simpl in A4. replace (length (h_map h) - 0) with (length (h_map h)) in A4 by lia.
      rewrite take_app in A4. exists (drop (length (h_map h)) (h_map h')).
      rewrite <- A4 at 1. by rewrite take_drop.
    - done.
    - done.
    - intros l. unfold marr. by rewrite A2. }
  eexists _, h'. split; [reflexivity|]. split; [done|]. split; [done|].
  rewrite Hmp in *.
  split.
  { exists n. destruct W. split; simpl; try done.
    - rewrite A3, A8, Hlen. simpl. lia.
    - rewrite A7. by eapply ext_map_ok.
    - by eapply ext_mask_ok. }
  split.
  { unfold abs. simpl. rewrite A7, A12, A14, A15. f_equal.
    apply map_eq. intros k. rewrite !lookup_fmap. destruct (_ !! k) as [s|] eqn:Es; [|done]. simpl.
    do 2 f_equal. eapply ext_sl_vals; [done|]. by apply (wf_cols _ _ _ W k). }
  simpl. split; [by rewrite A8|]. split; [lia|]. split; [done|]. split; [done|]. split; [by rewrite A13|]. done.
Qed.

(** ** columns of one map object replaced by equal ones *)
Lemma refresh_preserved l h h' : chg l h h' -> h_str h `prefix_of` h_str h' ->
  (forall k, mp h l !! k = None -> mp h' l !! k = None) ->
  (forall k s, mp h l !! k = Some s -> exists s', mp h' l !! k = Some s' /\
     (s' = s \/ fresh_col h h' s' (sl_vals h s))) ->
  preserved h h'.
Proof.
  intros C Hst Hn Hs d [n W].
  assert (Hmap : r_maps (d_raw d) = l -> map_ok h' n (mp h' l)).
  { intros <- k s' Hk. destruct (mp h (r_maps (d_raw d)) !! k) as [s|] eqn:Es.
    - destruct (Hs k s Es) as (s2 & E2 & Hd). rewrite Hk in E2. injection E2 as <-.
      destruct (wf_cols _ _ _ W _ _ Es) as [Hok Hlen]. destruct Hd as [->|Hf].
      + split; [by eapply chg_col_ok|done].
      + split.
        * eapply fresh_col_ok; [done|]. by eapply col_ok_vals_kind.
        * destruct Hf as (_ & _ & Hf & _). by rewrite Hf, (col_ok_vals_length _ _ _ Hok).
    - rewrite (Hn _ Es) in Hk. done. }
  split. { exists n. by eapply chg_wfn. }
  unfold abs. f_equal.
  - apply map_eq. intros k. rewrite !lookup_fmap.
    destruct (decide (r_maps (d_raw d) = l)) as [El|El].
    + rewrite El. destruct (mp h l !! k) as [s|] eqn:Es.
      * destruct (Hs k s Es) as (s2 & E2 & Hd). rewrite E2. simpl. do 2 f_equal.
        destruct Hd as [->|Hf]; [|by eapply fresh_col_vals].
        eapply chg_sl_vals; [done|]. rewrite <- El in Es. by apply (wf_cols _ _ _ W k).
      * by rewrite (Hn _ Es).
    + rewrite (c_map _ _ _ C) by (done || apply W).
      destruct (mp h (r_maps (d_raw d)) !! k) as [s|] eqn:Es; [|done]. simpl. do 2 f_equal.
      eapply chg_sl_vals; [done|]. by apply (wf_cols _ _ _ W k).
  - unfold ostr. destruct (r_strs (d_raw d)) as [i|] eqn:Ei; [|done].
    unfold str. apply prefix_lookup_default; [done|]. by apply (wf_str _ _ _ W).
Qed.

(** ** Unshare, whatever the receiver *)
Definition shared_cols (h : heap) (r : raw) : gset string :=
  if r_sharedMaps r then names (mp h (r_maps r)) else oshr h (r_shared r).

Lemma unshare_spec h r cols n : r_maps r < length (h_map h) -> valid_shr h (r_shared r) ->
  map_ok h n (mp h (r_maps r)) ->
  let m := mp h (r_maps r) in
  let cs := unshare_set r m cols in
  exists r' h', unshare r cols h = Ok (r', h') /\
    r_maps r' < length (h_map h') /\ valid_shr h' (r_shared r') /\ r_strs r' = r_strs r /\
    r_enc r' = r_enc r /\ r_cpu r' = r_cpu r /\ r_sharedMaps r' = false /\
    preserved h h' /\ chg (r_maps r') h h' /\ h_str h `prefix_of` h_str h' /\
    (r_sharedMaps r = true -> ext h h' /\ r_maps r' = length (h_map h)) /\
    (r_sharedMaps r = false -> r' = r) /\
    oshr h' (r_shared r') = shared_cols h r ∖ cs /\
    (forall k, m !! k = None -> mp h' (r_maps r') !! k = None) /\
    (forall k s, m !! k = Some s -> exists s', mp h' (r_maps r') !! k = Some s' /\
       (if decide (k.2 ∈ cs /\ k.2 ∈ shared_cols h r) then fresh_col h h' s' (sl_vals h s) else s' = s)).
Proof.
  intros Hr Hv Hok m cs. unfold shared_cols. destruct (r_sharedMaps r) eqn:Hs.
  { destruct (unshare_viewed_spec h r cols n Hr Hv Hok Hs) as
      (r' & h' & E & X & B1 & B2 & B3 & B4 & B5 & B6 & B7 & B8 & B9 & B10 & B11).
    exists r', h'. split; [done|]. split; [done|]. split; [done|]. do 4 (split; [done|]).
    split; [by apply ext_preserved|]. split; [by apply ext_chg|]. split; [apply X|].
    split; [done|]. split; [done|]. split; [done|]. split; [done|].
    intros k s Hk. destruct (B10 k s Hk) as [C1 C2]. fold m cs in C1, C2.
    case_decide as H1.
    - destruct (C2 (proj1 H1)) as (s' & ? & ?). by exists s'.
    - exists s. split; [|done]. apply C1. intros H2. apply H1. split; [done|].
      apply elem_of_names. destruct k. eauto. }
  unfold unshare. rewrite (bind_eq _ _ h (oshr h (r_shared r)) h) by done. rewrite Hs. cbn [negb andb].
  assert (Hcs : cs = unshare_set r m cols) by done.
  case_bool_decide as Hsh.
  { exists r, h. split; [done|]. split; [done|]. split; [done|]. do 4 (split; [done|]).
    split; [intros d W; done|]. split; [by apply ext_chg|]. split; [done|]. split; [done|]. split; [done|].
    rewrite Hsh. split; [set_solver|]. split; [done|]. intros k s Hk. exists s. split; [done|].
    rewrite decide_False; [done|]. set_solver. }
  unfold own_maps. rewrite Hs. rewrite (bind_eq _ _ h r h) by done.
  rewrite (bind_eq _ _ h m h) by done. rewrite (bind_eq _ _ h (oshr h (r_shared r)) h) by done.
  fold (unshare_set r m cols). rewrite <- Hcs. set (sh := oshr h (r_shared r)) in *.
  set (todo := map_to_list (filter (fun p : key * slice => p.1.2 ∈ sh /\ p.1.2 ∈ cs) m)).
  assert (Htodo : forall k s, (k, s) ∈ todo <-> m !! k = Some s /\ k.2 ∈ sh /\ k.2 ∈ cs).
  { intros k s. unfold todo. by rewrite elem_of_map_to_list, map_filter_lookup_Some. }
  destruct (fill_spec (r_maps r) fst (fun p => get_vals p.2) (fun p : key * slice => sl_vals h p.2)
              todo h) as (h2 & E2 & G2 & O2 & F2 & D2).
  { done. }
  { intros [k s] hh [Hks _]%Htodo G. simpl. unfold get_vals. do 2 f_equal.
    destruct (Hok k s Hks) as [Hc _]. by rewrite (grow_sl_vals _ _ _ k.1 _ G). }
  { intros [k s] [k' s'] [H1 _]%Htodo [H2 _]%Htodo E. simpl in *. subst. rewrite H1 in H2. congruence. }
  unfold copy_cols. rewrite (bind_eq _ _ _ _ _ E2).
  destruct (shr_remove_spec (r_shared r) cs h2) as (h3 & E3 & O3 & L3 & R3).
  rewrite (bind_eq _ _ _ _ _ E3). exists r, h3. split; [done|].
  assert (C : chg (r_maps r) h h3).
  { eapply chg_trans; [by apply grow_chg|by apply only_shr_chg]. }
  assert (Hm3 : mp h3 (r_maps r) = mp h2 (r_maps r)) by (unfold mp; by rewrite (os_map _ _ O3)).
  assert (Hstr : h_str h `prefix_of` h_str h3) by (rewrite (os_str _ _ O3), (g_str _ _ _ G2); done).
  assert (HN : forall k, m !! k = None -> mp h3 (r_maps r) !! k = None).
  { intros k Hk. rewrite Hm3, O2; [done|]. intros ([k' s'] & -> & [Hin _]%Htodo)%elem_of_list_fmap.
    simpl in Hk. congruence. }
  assert (HS : forall k s, m !! k = Some s -> exists s', mp h3 (r_maps r) !! k = Some s' /\
    (if decide (k.2 ∈ cs /\ k.2 ∈ sh) then fresh_col h h3 s' (sl_vals h s) else s' = s)).
  { intros k s Hk. rewrite Hm3. destruct (decide (k.2 ∈ cs /\ k.2 ∈ sh)) as [[H1 H2]|H1].
    - destruct (F2 (k, s)) as (s' & S1 & S2); [by apply Htodo|]. exists s'. split; [done|].
      eapply fresh_col_mono; [exact S2|]. by rewrite (os_arr _ _ O3).
    - exists s. split; [|done]. rewrite O2; [done|].
      intros ([k' s'] & -> & (_ & H2 & H3)%Htodo)%elem_of_list_fmap. simpl in H1. tauto. }
  split; [rewrite (os_map _ _ O3), (g_len _ _ _ G2); done|].
  split; [intros l Hl; rewrite L3, (g_shr _ _ _ G2); by apply Hv|].
  do 4 (split; [done|]). split.
  { eapply refresh_preserved; [exact C|done|done|]. intros k s Hk.
    destruct (HS k s Hk) as (s' & S1 & S2). exists s'. split; [done|].
    destruct (decide _); [by right|by left]. }
  split; [done|]. split; [done|]. split; [done|]. split; [done|]. split; [|done].
  rewrite R3; [by rewrite (grow_oshr _ _ _ _ G2)|]. intros l Hl. rewrite (g_shr _ _ _ G2). by apply Hv.
Qed.

Lemma unshare_df h d cols : wf h d ->
  let cs := unshare_set (d_raw d) (mp h (r_maps (d_raw d))) cols in
  exists r' h', unshare (d_raw d) cols h = Ok (r', h') /\ preserved h h' /\
    wf h' (set_raw d r') /\ abs h' (set_raw d r') = abs h d /\
    (forall k, k.2 ∈ cs -> k.2 ∈ shared_cols h (d_raw d) -> young_col h h' (set_raw d r') k) /\
    (r_sharedMaps (d_raw d) = true -> ext h h' /\ r_maps r' = length (h_map h)) /\
    (r_sharedMaps (d_raw d) = false -> r' = d_raw d) /\ chg (r_maps r') h h'.
Proof.
  intros [n W] cs. destruct (unshare_spec h (d_raw d) cols n) as
    (r' & h' & E & A1 & A2 & A3 & A4 & A5 & A6 & P & C & A7 & A8 & A9 & A10 & A11 & A12);
    [apply W|exact (wf_shr _ _ _ W)|apply W|]. fold cs in A10, A11, A12.
  exists r', h'. split; [done|]. split; [done|].
  assert (Hok : map_ok h' n (mp h' (r_maps r'))).
  { intros k s' Hk. destruct (mp h (r_maps (d_raw d)) !! k) as [s|] eqn:Es.
    - destruct (A12 k s Es) as (s2 & E2 & Hd). rewrite Hk in E2. injection E2 as <-.
      destruct (wf_cols _ _ _ W _ _ Es) as [Hc Hlen]. destruct (decide _).
      + split; [eapply fresh_col_ok; [done|]; by eapply col_ok_vals_kind|].
        destruct Hd as (_ & _ & Hf & _). by rewrite Hf, (col_ok_vals_length _ _ _ Hc).
      + subst s'. split; [by eapply chg_col_ok|done].
    - rewrite (A11 _ Es) in Hk. done. }
  split.
  { exists n. apply (struct_wfn h d n r' h' W C); try done. rewrite A3. intros l Hl.
    pose proof (wf_str _ _ _ W l Hl). pose proof (c_str _ _ _ C). lia. }
  split.
  { unfold abs. simpl. rewrite A3, A4, A5. f_equal.
    - apply map_eq. intros k. rewrite !lookup_fmap.
      destruct (mp h (r_maps (d_raw d)) !! k) as [s|] eqn:Es.
      + destruct (A12 k s Es) as (s2 & E2 & Hd). rewrite E2. simpl.
        change (inds (set_raw d r')) with (inds d). do 2 f_equal.
        destruct (decide _); [by eapply fresh_col_vals|]. subst s2.
        eapply chg_sl_vals; [done|]. by apply (wf_cols _ _ _ W k).
      + by rewrite (A11 _ Es).
    - unfold ostr. destruct (r_strs (d_raw d)) as [i|] eqn:Ei; [|done].
      unfold str. apply prefix_lookup_default; [done|]. by apply (wf_str _ _ _ W). }
  split; [|done]. intros k H1 H2 s' Hs'. simpl in Hs'.
  destruct (mp h (r_maps (d_raw d)) !! k) as [s|] eqn:Es.
  - destruct (A12 k s Es) as (s2 & E2 & Hd). rewrite Hs' in E2. injection E2 as <-.
    rewrite decide_True in Hd by done. apply Hd.
  - rewrite (A11 _ Es) in Hs'. done.
Qed.

(** ** Masks *)
(** Only the contents of masks change. *)
Lemma msl_wr_spec s i b h : mask_ok h s -> i < s_len s ->
  exists h', msl_wr s i b h = Ok (tt, h') /\ ext h h' /\ h_arr h' = h_arr h /\ h_map h' = h_map h /\
    h_str h' = h_str h /\ h_shr h' = h_shr h /\
    length (h_mask h') = length (h_mask h) /\
    (forall l, length (marr h' l) = length (marr h l)) /\
    msl_vals h' s = <[i := b]> (msl_vals h s).
Proof.
  intros [H1 H2] Hi. unfold msl_wr. rewrite decide_True by done.
  assert (Ha : s_arr s < length (h_mask h)).
  { destruct (decide (s_arr s < length (h_mask h))) as [|Hge]; [done|].
    unfold marr in H2. rewrite lookup_ge_None_2 in H2 by lia. simpl in H2. lia. }
  assert (Hlen : forall l, length (marr (set_marr h (s_arr s) (<[s_off s + i:=b]> (marr h (s_arr s)))) l) =
     length (marr h l)).
  { intros l. unfold marr. simpl. destruct (decide (l = s_arr s)) as [->|Hl].
    - rewrite list_lookup_insert by done. simpl. by rewrite insert_length.
    - by rewrite list_lookup_insert_ne. }
  eexists. split; [reflexivity|]. split.
  { split; try done. intros l. by rewrite Hlen. }
  do 4 (split; [done|]). split; [simpl; by rewrite insert_length|]. split; [done|].
  unfold msl_vals. unfold marr at 1. simpl. rewrite list_lookup_insert by done. simpl.
  rewrite drop_insert_le by lia. replace (s_off s + i - s_off s) with i by lia.
  apply list_eq. intros j. destruct (decide (j < s_len s)) as [Hj|Hj].
  - rewrite lookup_take by done. destruct (decide (i = j)) as [->|Hij].
    + rewrite !list_lookup_insert; [done|rewrite take_length, drop_length; lia|rewrite drop_length; lia].
    + rewrite !list_lookup_insert_ne by done. by rewrite lookup_take.
  - rewrite lookup_take_ge by lia. symmetry. apply lookup_ge_None_2.
    rewrite insert_length, take_length. lia.
Qed.

Lemma zero_loop_spec s n h : mask_ok h s -> n <= s_len s ->
  exists h', forM (seq 0 n) (fun i => msl_wr s i false) h = Ok (tt, h') /\ ext h h' /\
    h_arr h' = h_arr h /\ h_map h' = h_map h /\ h_str h' = h_str h /\ h_shr h' = h_shr h /\
    (forall l, length (marr h' l) = length (marr h l)) /\
    take n (msl_vals h' s) = replicate n false.
Proof.
  intros Hm. induction n as [|n IH]; intros Hn.
  { exists h. repeat (split; [done|]). done. }
  destruct IH as (h1 & E1 & X1 & A1 & A2 & A3 & A4 & A5 & A6); [lia|].
  assert (Hm1 : mask_ok h1 s) by (destruct Hm; split; [done|]; by rewrite A5).
  destruct (msl_wr_spec s n false h1 Hm1) as (h2 & E2 & X2 & B1 & B2 & B3 & B4 & _ & B5 & B6); [lia|].
  exists h2. rewrite seq_S.
  assert (Ef : forall {A} (f : A -> M unit) xs y hh h0, forM xs f hh = Ok (tt, h0) ->
     forM (xs ++ [y]) f hh = f y h0).
  { intros A f xs y. induction xs as [|x xs IHx]; intros hh h0 E.
    - simpl in E. apply ret_ok in E as [_ <-]. simpl. unfold bind. by destruct (f y hh) as [[[] ?]|].
    - simpl in *. apply bind_ok in E as (u & hh1 & E & E'). destruct u.
      rewrite (bind_eq _ _ _ _ _ E). by apply IHx. }
  split; [by rewrite (Ef _ _ _ _ _ _ E1)|]. split; [by etrans|]. split; [congruence|]. split; [congruence|].
  split; [congruence|]. split; [congruence|]. split; [intros l; by rewrite B5|].
  rewrite B6. destruct Hm1 as [Q1 Q2].
  assert (Hlen : length (msl_vals h1 s) = s_len s).
  { unfold msl_vals. rewrite take_length, drop_length. lia. }
  rewrite replicate_S_end, (take_S_r _ n false).
  - rewrite take_insert by lia. by rewrite A6.
  - apply list_lookup_insert. lia.
Qed.

Lemma make_mask_spec n h : exists s h', make_mask n h = Ok (s, h') /\ ext h h' /\
  h_arr h' = h_arr h /\ h_map h' = h_map h /\ h_str h' = h_str h /\ h_shr h' = h_shr h /\
  mask_ok h' s /\ s_len s = n /\ msl_vals h' s = replicate n false.
Proof.
  eexists _, _. split; [reflexivity|]. split.
  { split; try done. intros l. unfold marr. simpl. destruct (decide (l < length (h_mask h))).
    - by rewrite lookup_app_l.
    - rewrite (lookup_ge_None_2 (h_mask h)) by lia. simpl. lia. }
  do 4 (split; [done|]).
  assert (Em : marr (Heap (h_arr h) (h_mask h ++ [replicate n false]) (h_map h) (h_str h) (h_shr h)) (length (h_mask h))
    = replicate n false).
  { unfold marr. simpl. by rewrite lookup_app_r, Nat.sub_diag. }
  split; [split; simpl; [lia|]; rewrite Em, replicate_length; lia|]. split; [done|].
  unfold msl_vals. cbn [s_len s_off s_arr]. rewrite Em. rewrite drop_0. apply take_ge. by rewrite replicate_length.
Qed.

Lemma mask_prefix_spec h d : wf h d -> exists s, mask_prefix d h = Ok (s, h) /\ mask_ok h s /\
  s_len s = num_rows d /\ msl_vals h s = take (num_rows d) (msl_vals h (d_mask d)).
Proof.
  intros [n W]. destruct (wf_mask _ _ _ W) as [H1 H2]. pose proof (wf_mlen _ _ _ W) as H3.
  unfold mask_prefix. rewrite decide_True by lia. eexists. split; [reflexivity|].
  split; [split; simpl; [lia|done]|]. split; [done|]. unfold msl_vals. simpl.
  rewrite take_take. by rewrite Nat.min_l.
Qed.

Lemma zero_mask_spec h d : wf h d ->
  exists s h', zero_mask d h = Ok (s, h') /\ preserved h h' /\ h_arr h' = h_arr h /\ h_map h' = h_map h /\
    mask_ok h' s /\ msl_vals h' s = replicate (num_rows d) false.
Proof.
  intros W. unfold zero_mask. destruct (d_mts d).
  - destruct (make_mask_spec (num_rows d) h) as (s & h' & E & X & A1 & A2 & A3 & A4 & A5 & A6 & A7).
    exists s, h'. eauto 12 using ext_preserved.
  - pose proof W as [n Wn].
    destruct (zero_loop_spec (d_mask d) (num_rows d) h) as (h1 & E1 & X1 & A1 & A2 & A3 & A4 & A5 & A6);
      [apply Wn|apply Wn|].
    rewrite (bind_eq _ _ _ _ _ E1).
    destruct (mask_prefix_spec h1 d) as (s & E2 & B1 & B2 & B3); [by eapply ext_wf|].
    exists s, h1. rewrite B3. eauto 12 using ext_preserved.
Qed.
Lemma empty_mask_spec h d : wf h d ->
  exists s h', empty_mask d h = Ok (s, h') /\ preserved h h' /\ h_arr h' = h_arr h /\ h_map h' = h_map h /\
    mask_ok h' s /\ s_len s = num_rows d.
Proof.
  intros W. unfold empty_mask. destruct (d_mts d).
  - destruct (make_mask_spec (num_rows d) h) as (s & h' & E & X & A1 & A2 & A3 & A4 & A5 & A6 & A7).
    exists s, h'. eauto 12 using ext_preserved.
  - destruct (mask_prefix_spec h d W) as (s & E2 & B1 & B2 & B3).
    exists s, h. split; [done|]. split; [intros d2 W2; done|]. done.
Qed.
End frame.
