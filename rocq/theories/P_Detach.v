(** Unshare, DetachedView, Copy, ShallowCopy. *)
From Verif Require Export P_Fill.

(** ** sequences of writes *)
Definition write_op : Type := key * Z * val.
Definition do_writes (d : dframe) (ws : list write_op) : M unit :=
  forM ws (fun w => set_cell w.1.1.1 d w.1.1.2 w.1.2 w.2).
Definition writes_typed (ws : list write_op) : Prop :=
  Forall (fun w : write_op => kind_of w.2 = w.1.1.1) ws.

Section frame.
Context {rt : GoRT}.

(** A sequence of writes only touches cells of the columns written. *)
Lemma do_writes_spec d ws : forall h h', wf h d -> writes_typed ws ->
  do_writes d ws h = Ok (tt, h') ->
  wrt h h' /\
  (forall a, (forall k j, k ∈ (fun w : write_op => w.1.1) <$> ws -> cell_of h d k j <> Some a) ->
     cell_val h' a = cell_val h a).
Proof.
  induction ws as [|[[k row] v] ws IH]; intros h h' W Ht E.
  { unfold do_writes in E. simpl in E. apply ret_ok in E as [_ <-]. done. }
  unfold do_writes in E. cbn [forM] in E. apply bind_ok in E as ([] & h1 & E1 & E2).
  apply Forall_cons in Ht as [Hk Ht]. simpl in Hk, E1.
  pose proof (set_cell_spec h d k.1 k.2 row v W Hk) as S. rewrite E1 in S.
  destruct S as (a & H0 & Ha & -> & Hw & Hc).
  destruct (IH (upd h a v) h') as [Hw' Hc']; [by eapply wrt_wf|done|exact E2|].
  split; [by etrans|]. intros b Hb. rewrite Hc'.
  - rewrite Hc. destruct (decide (b = a)) as [->|]; [|done].
    exfalso. apply (Hb k (Z.to_nat row)); [set_solver|]. by destruct k.
  - intros k' j Hk'. rewrite (wrt_cell_of _ _ _ _ _ Hw). apply Hb. set_solver.
Qed.

(** Writes to columns stored in arrays that are younger than [h0] do not change
    what dataframes of [h0] show. *)
Definition young_col (h0 h : heap) (d : dframe) (k : key) : Prop :=
  forall s, mp h (r_maps (d_raw d)) !! k = Some s -> length (h_arr h0) <= s_arr s.

Lemma do_writes_young h0 h d ws h' d0 : wf h d -> writes_typed ws ->
  Forall (fun w : write_op => young_col h0 h d w.1.1) ws ->
  do_writes d ws h = Ok (tt, h') ->
  (forall k j a, cell_of h d0 k j = Some a -> a.1 < length (h_arr h0)) ->
  wf h d0 -> abs h' d0 = abs h d0.
Proof.
  intros W Ht Hy E Hold W0.
  destruct (do_writes_spec d ws h h' W Ht E) as [Hw Hc].
  apply wrt_abs; [done|done|]. intros k j a Ha. apply Hc. intros k' j' Hk' Ha'.
  specialize (Hold k j a Ha).
  apply elem_of_list_fmap in Hk' as (w & -> & Hw').
  pose proof (proj1 (Forall_forall _ _) Hy w Hw') as Hyw.
  unfold cell_of in Ha'. destruct (mp h (r_maps (d_raw d)) !! w.1.1) as [s|] eqn:Es; [|done].
  simpl in Ha'. destruct (inds d !! j') as [i|]; [|done]. injection Ha' as <-. simpl in Hold.
  specialize (Hyw s Es). lia.
Qed.

Lemma cell_of_ext h h' d k j : ext h h' -> wf h d -> cell_of h' d k j = cell_of h d k j.
Proof. intros H [n W]. unfold cell_of. rewrite (ext_mp _ _ _ H); [done|]. apply W. Qed.

(** ** Unshare *)
(** The columns Unshare copies. *)
Definition unshare_set (r : raw) (m : gmap key slice) (cols : list string) : gset string :=
  if decide (cols = [] \/ length cols = num_columns m) then names m else list_to_set cols.

Lemma unshare_viewed_spec h r cols n : r_maps r < length (h_map h) -> valid_shr h (r_shared r) ->
  map_ok h n (mp h (r_maps r)) -> r_sharedMaps r = true ->
  exists r' h', unshare r cols h = Ok (r', h') /\ ext h h' /\
    r_maps r' = length (h_map h) /\ r_maps r' < length (h_map h') /\
    valid_shr h' (r_shared r') /\ r_strs r' = r_strs r /\ r_enc r' = r_enc r /\
    r_cpu r' = r_cpu r /\ r_sharedMaps r' = false /\
    oshr h' (r_shared r') = names (mp h (r_maps r)) ∖ unshare_set r (mp h (r_maps r)) cols /\
    (forall k, mp h (r_maps r) !! k = None -> mp h' (r_maps r') !! k = None) /\
    (forall k s, mp h (r_maps r) !! k = Some s ->
       (k.2 ∉ unshare_set r (mp h (r_maps r)) cols -> mp h' (r_maps r') !! k = Some s) /\
       (k.2 ∈ unshare_set r (mp h (r_maps r)) cols -> exists s',
          mp h' (r_maps r') !! k = Some s' /\ fresh_col h h' s' (sl_vals h s))) /\
    (forall k1 k2 s1 s2, k1.2 ∈ unshare_set r (mp h (r_maps r)) cols ->
       k2.2 ∈ unshare_set r (mp h (r_maps r)) cols -> k1 <> k2 ->
       mp h' (r_maps r') !! k1 = Some s1 -> mp h' (r_maps r') !! k2 = Some s2 -> s_arr s1 <> s_arr s2).
Proof.
  intros Hr Hv Hok Hs. unfold unshare.
  rewrite (bind_eq _ _ h (oshr h (r_shared r)) h) by done. rewrite Hs. cbn [negb andb].
  destruct (own_maps_spec r h Hr Hv) as
    (r1 & h1 & E1 & A1 & A2 & A3 & A4 & A5 & A6 & A7 & A8 & A9 & A10 & A11 & _).
  destruct (A11 Hs) as (B1 & B2 & B3).
  rewrite (bind_eq _ _ _ _ _ E1).
  rewrite (bind_eq _ _ h1 (mp h1 (r_maps r1)) h1) by done.
  rewrite (bind_eq _ _ h1 (oshr h1 (r_shared r1)) h1) by done.
  rewrite A5, B3. fold (unshare_set r (mp h (r_maps r)) cols).
  set (m := mp h (r_maps r)) in *. set (cs := unshare_set r m cols).
  set (todo := map_to_list (filter (fun p : key * slice => p.1.2 ∈ names m /\ p.1.2 ∈ cs) m)).
  assert (Htodo : forall k s, (k, s) ∈ todo <-> m !! k = Some s /\ k.2 ∈ cs).
  { intros k s. unfold todo. rewrite elem_of_map_to_list, map_filter_lookup_Some. simpl.
    split; [tauto|]. intros [H1 H2]. split; [done|]. split; [|done].
    apply elem_of_names. destruct k. eauto. }
  assert (Hkey : forall k, k ∈ fst <$> todo <-> is_Some (m !! k) /\ k.2 ∈ cs).
  { intros k. rewrite elem_of_list_fmap. split.
    - intros ([k' s] & -> & H%Htodo). simpl. destruct H. eauto.
    - intros [[s Hs'] Hk]. exists (k, s). split; [done|]. by apply Htodo. }
  destruct (fill_spec (r_maps r1) fst (fun p => get_vals p.2) (fun p : key * slice => sl_vals h p.2)
              todo h1) as (h2 & E2 & G2 & O2 & F2 & D2).
  { lia. }
  { intros [k s] hh [Hks _]%Htodo G. simpl. unfold get_vals. do 2 f_equal.
    destruct (Hok k s Hks) as [Hc _].
    rewrite (grow_sl_vals _ _ _ k.1 _ G) by (by eapply ext_col_ok).
    by apply (ext_sl_vals _ _ k.1). }
  { intros [k s] [k' s'] [H1 _]%Htodo [H2 _]%Htodo E. simpl in *. subst. rewrite H1 in H2. congruence. }
  unfold copy_cols.
  rewrite (bind_eq (forM todo _) _ h1 tt h2 E2).
  destruct (shr_remove_spec (r_shared r1) cs h2) as (h3 & E3 & O3 & L3 & V3).
  rewrite (bind_eq _ _ _ _ _ E3).
  assert (X2 : ext h h2) by (eapply grow_ext; [exact A1|exact G2|lia]).
  assert (X3 : ext h h3) by (etrans; [exact X2|by apply only_shr_ext]).
  exists r1, h3. split; [done|]. split; [done|]. split; [done|].
  split; [rewrite (os_map _ _ O3), (g_len _ _ _ G2); lia|].
  split.
  { intros l Hl. rewrite L3, (g_shr _ _ _ G2). by apply A7. }
  do 4 (split; [done|]).
  assert (Hmp : mp h3 (r_maps r1) = mp h2 (r_maps r1)) by (unfold mp; by rewrite (os_map _ _ O3)).
  split.
  { rewrite V3.
    - by rewrite (grow_oshr _ _ _ _ G2), B3.
    - intros l Hl. rewrite (g_shr _ _ _ G2). by apply A7. }
  rewrite !Hmp. split; [|split].
  - intros k Hk. rewrite O2; [by rewrite A5|]. rewrite Hkey. intros [[? ?] _]. congruence.
  - intros k s Hk. split.
    + intros Hn. rewrite O2; [by rewrite A5|]. rewrite Hkey. tauto.
    + intros Hin. destruct (F2 (k, s)) as (s' & Hs' & Hf); [by apply Htodo|].
      exists s'. split; [done|]. simpl in Hf.
      assert (Hf2 : fresh_col h h2 s' (sl_vals h s)).
      { eapply fresh_col_old; [exact Hf|]. by rewrite A2. }
      eapply fresh_col_mono; [exact Hf2|]. by rewrite (os_arr _ _ O3).
  - intros k1 k2 s1 s2 H1 H2 Hne Hs1 Hs2.
    eapply (D2 k1 k2); try done; apply Hkey; (split; [|done]).
    + destruct (m !! k1) eqn:Em; [eauto|]. exfalso. rewrite O2, A5, Em in Hs1; [done|].
      rewrite Hkey. intros [[? ?] _]. congruence.
    + destruct (m !! k2) eqn:Em; [eauto|]. exfalso. rewrite O2, A5, Em in Hs2; [done|].
      rewrite Hkey. intros [[? ?] _]. congruence.
Qed.

(** DetachedView *)
Lemma detached_view_spec h d cols : wf h d ->
  let cs := unshare_set (d_raw d) (mp h (r_maps (d_raw d))) cols in
  exists v h', detached_view d cols h = Ok (v, h') /\ ext h h' /\ wf h' v /\
    abs h' v = abs h d /\ inds v = inds d /\ d_viewed v = d_viewed d /\
    r_maps (d_raw v) = length (h_map h) /\
    (forall k, k.2 ∈ cs -> young_col h h' v k) /\
    (forall k, k.2 ∉ cs -> mp h' (r_maps (d_raw v)) !! k = mp h (r_maps (d_raw d)) !! k).
Proof.
  intros [n W] cs. unfold detached_view.
  destruct (unshare_viewed_spec h (d_raw (view d)) cols n) as
    (r' & h' & E & X & A1 & A2 & A3 & A4 & A5 & A6 & A7 & A8 & A9 & A10 & A11);
    [apply (wf_map _ _ _ W)|exact (wf_shr _ _ _ W)|apply (wf_cols _ _ _ W)|done|].
  change (mp h (r_maps (d_raw (view d)))) with (mp h (r_maps (d_raw d))) in *.
  change (unshare_set (d_raw (view d)) (mp h (r_maps (d_raw d))) cols) with cs in *.
  rewrite (bind_eq _ _ _ _ _ E). exists (set_raw d r'), h'. split; [done|]. split; [done|].
  assert (Hcol : forall k s', mp h' (r_maps r') !! k = Some s' ->
     exists s, mp h (r_maps (d_raw d)) !! k = Some s /\ col_ok h' k.1 s' /\ s_len s' = n /\
               sl_vals h' s' = sl_vals h s).
  { intros k s' Hs'. destruct (mp h (r_maps (d_raw d)) !! k) as [s|] eqn:Ek.
    2:{ rewrite A9 in Hs'; done. }
    exists s. split; [done|]. destruct (wf_cols _ _ _ W k s Ek) as [Hok Hn].
    destruct (A10 k s Ek) as [B1 B2]. destruct (decide (k.2 ∈ cs)) as [Hin|Hin].
    - destruct (B2 Hin) as (s'' & Hs'' & Hf). rewrite Hs' in Hs''. injection Hs'' as <-.
      split; [eapply fresh_col_ok; [exact Hf|by apply col_ok_vals_kind]|].
      split; [|by eapply fresh_col_vals].
      destruct Hf as (_ & _ & Hl & _). rewrite Hl. by rewrite (col_ok_vals_length _ _ _ Hok).
    - rewrite (B1 Hin) in Hs'. injection Hs' as <-.
      split; [by eapply ext_col_ok|]. split; [done|]. by eapply ext_sl_vals. }
  assert (W' : wfn h' (set_raw d r') n).
  { destruct W. split; simpl; try done.
    - rewrite A4. intros l Hl. pose proof (prefix_length _ _ (e_str _ _ X)).
      specialize (wf_str l Hl). lia.
    - intros k s' Hs'. destruct (Hcol k s' Hs') as (s & _ & ? & ? & _). done.
    - by eapply ext_mask_ok. }
  split; [by exists n|]. split.
  { unfold abs. simpl. f_equal.
    - apply map_eq. intros k. rewrite !lookup_fmap.
      destruct (mp h' (r_maps r') !! k) as [s'|] eqn:Es'.
      + destruct (Hcol k s' Es') as (s & -> & _ & _ & Hv). simpl. by rewrite Hv.
      + destruct (mp h (r_maps (d_raw d)) !! k) as [s|] eqn:Ek; [|done]. exfalso.
        destruct (A10 k s Ek) as [B1 B2]. destruct (decide (k.2 ∈ cs)) as [Hin|Hin].
        * destruct (B2 Hin) as (s'' & Hs'' & _). congruence.
        * rewrite (B1 Hin) in Es'. congruence.
    - rewrite A4. apply ext_ostr; [done|]. apply W.
    - done.
    - done. }
  do 3 (split; [done|]). split.
  - intros k Hin s' Hs'. simpl in Hs'. destruct (Hcol k s' Hs') as (s & Ek & _).
    destruct (A10 k s Ek) as [_ B2]. destruct (B2 Hin) as (s'' & Hs'' & Hf).
    rewrite Hs' in Hs''. injection Hs'' as <-. apply Hf.
  - intros k Hin. simpl. destruct (mp h (r_maps (d_raw d)) !! k) as [s|] eqn:Ek.
    + by apply A10.
    + by apply A9.
Qed.

(** Copy *)
Lemma empty_df_spec n cpu h : (0 <= n)%Z -> exists e h', empty_df n cpu h = Ok (e, h') /\
  ext h h' /\ h_arr h' = h_arr h /\ h_str h' = h_str h /\ h_shr h' = h_shr h /\
  length (h_map h') = S (length (h_map h)) /\
  r_maps (d_raw e) = length (h_map h) /\ mp h' (length (h_map h)) = ∅ /\
  d_ind e = mk_ind (seq 0 (Z.to_nat n)) /\ mask_ok h' (d_mask e) /\
  s_len (d_mask e) = Z.to_nat n.
Proof.
  intros Hn. unfold empty_df.
  set (h1 := Heap (h_arr h) (h_mask h) (h_map h ++ [∅]) (h_str h) (h_shr h)).
  assert (ext h h1) as X1 by (split; try done; by eexists).
  rewrite (bind_eq _ _ h (length (h_map h)) h1) by done.
  destruct (decide (0 < n)%Z).
  - eexists _, _. split; [reflexivity|]. split.
    { split; try done; simpl; [by eexists|]. intros i. unfold marr. simpl.
      destruct (decide (i < length (h_mask h))).
      * by rewrite lookup_app_l.
      * rewrite (lookup_ge_None_2 (h_mask h)) by lia. simpl. lia. }
    do 3 (split; [reflexivity|]). split; [simpl; rewrite app_length; simpl; lia|].
    split; [reflexivity|]. split; [unfold mp; simpl; by rewrite lookup_app_r, Nat.sub_diag|].
    split; [reflexivity|]. split; [|done].
    split; simpl; [lia|]. unfold marr. simpl. rewrite lookup_app_r, Nat.sub_diag by done.
    simpl. rewrite replicate_length. lia.
  - eexists _, h1. split; [reflexivity|]. split; [done|].
    do 3 (split; [reflexivity|]). split; [simpl; rewrite app_length; simpl; lia|].
    split; [reflexivity|]. split; [unfold mp; simpl; by rewrite lookup_app_r, Nat.sub_diag|].
    replace (Z.to_nat n) with 0 by lia. split; [reflexivity|]. split; [|done].
    split; simpl; lia.
Qed.

Lemma str_copy_spec o h : valid_str h o -> exists o' h', str_copy o h = Ok (o', h') /\
  only_new_str h h' /\ valid_str h' o' /\ ostr h' o' = ostr h o /\
  (forall l, o' = Some l -> length (h_str h) <= l).
Proof.
  intros Hv. destruct o as [l|]; simpl.
  - eexists _, _. split; [reflexivity|]. split; [split; simpl; try done; by eexists|].
    split; [|split].
    + intros l' [= <-]. simpl. rewrite app_length. simpl. lia.
    + simpl. unfold str at 1. simpl. by rewrite lookup_app_r, Nat.sub_diag.
    + by intros l' [= <-].
  - exists None, h. split; [done|]. split; [by split|]. split; [|done]. done.
Qed.

Lemma copy_df_spec h d : wf h d ->
  exists v h', copy_df d h = Ok (v, h') /\ ext h h' /\ wf h' v /\ d_viewed v = false /\
    abs h' v = Table (num_rows d) (t_cols (abs h d)) (t_strs (abs h d)) None (t_cpu (abs h d)) /\
    r_maps (d_raw v) = length (h_map h) /\ d_ind v = mk_ind (seq 0 (num_rows d)) /\
    (forall l, r_strs (d_raw v) = Some l -> length (h_str h) <= l) /\
    (forall k, young_col h h' v k) /\ r_shared (d_raw v) = None /\ r_sharedMaps (d_raw v) = false /\
    (forall k1 k2 s1 s2, k1 <> k2 -> mp h' (r_maps (d_raw v)) !! k1 = Some s1 ->
       mp h' (r_maps (d_raw v)) !! k2 = Some s2 -> s_arr s1 <> s_arr s2).
Proof.
  intros [n W]. unfold copy_df.
  destruct (empty_df_spec (Z.of_nat (num_rows d)) (r_cpu (d_raw d)) h) as
    (e & h1 & E1 & X1 & A1 & A2 & A3 & A4 & A5 & A6 & A7 & A8 & A9); [lia|].
  rewrite (bind_eq _ _ _ _ _ E1). rewrite Nat2Z.id in *.
  destruct (str_copy_spec (r_strs (d_raw d)) h1) as (st & h2 & E2 & N2 & V2 & S2 & L2).
  { intros l Hl. rewrite A2. by apply (wf_str _ _ _ W). }
  rewrite (bind_eq _ _ _ _ _ E2).
  rewrite (bind_eq _ _ h2 (mp h2 (r_maps (d_raw d))) h2) by done. cbv zeta.
  pose proof (wf_map _ _ _ W) as Hmap.
  assert (X2 : ext h h2) by (etrans; [exact X1|by apply only_new_str_ext]).
  assert (Hm2 : mp h2 (r_maps (d_raw d)) = mp h (r_maps (d_raw d))) by (apply ext_mp; done).
  rewrite Hm2. set (m := mp h (r_maps (d_raw d))) in *.
  set (l := r_maps (d_raw e)).
  assert (Hl2 : length (h_map h2) = S (length (h_map h))) by by rewrite (ns_map _ _ N2).
  destruct (fill_spec l fst (fun p => if d_viewed d then gather p.2 (inds d) else get_vals p.2)
     (fun p : key * slice => pick (inds d) (sl_vals h p.2)) (map_to_list m) h2)
    as (h3 & E3 & G3 & O3 & F3 & D3).
  { unfold l. lia. }
  { intros [k s] hh Hks%elem_of_map_to_list G. simpl.
    destruct (wfn_col _ _ _ _ _ W Hks) as (Hok & Hn & Hr).
    assert (Hv : sl_vals hh s = sl_vals h s).
    { rewrite (grow_sl_vals _ _ _ k.1 _ G) by (by eapply ext_col_ok).
      by apply (ext_sl_vals _ _ k.1). }
    destruct (d_viewed d) eqn:Hvw.
    - rewrite gather_ok by (by rewrite Hv). by rewrite Hv.
    - unfold get_vals. rewrite Hv. do 2 f_equal.
      destruct (wf_cont _ _ _ W Hvw) as [-> ->]. rewrite <- Hn.
      rewrite <- (col_ok_vals_length _ _ _ Hok). by rewrite pick_seq_all. }
  { intros [k s] [k' s'] H1%elem_of_map_to_list H2%elem_of_map_to_list E. simpl in *. subst.
    rewrite H1 in H2. congruence. }
  rewrite (bind_eq (forM (map_to_list m) _) _ h2 tt h3 E3).
  assert (X3 : ext h h3) by (eapply grow_ext; [exact X2|exact G3|unfold l; lia]).
  eexists _, h3. split; [reflexivity|]. split; [done|].
  assert (Hm3 : forall k, match m !! k with
     | Some s => exists s', mp h3 l !! k = Some s' /\ fresh_col h2 h3 s' (pick (inds d) (sl_vals h s))
     | None => mp h3 l !! k = None end).
  { intros k. destruct (m !! k) as [s|] eqn:Ek.
    - destruct (F3 (k, s)) as (s' & ? & ?); [by apply elem_of_map_to_list|]. eauto.
    - rewrite O3.
      + unfold mp. rewrite (ns_map _ _ N2). unfold l. rewrite A5.
        change (default ∅ (h_map h1 !! length (h_map h)) !! k = None).
        change (mp h1 (length (h_map h)) !! k = None). by rewrite A6.
      + intros ([k' s] & -> & Hin%elem_of_map_to_list)%elem_of_list_fmap. simpl in Ek. congruence. }
  assert (Hst : ostr h3 st = ostr h (r_strs (d_raw d))).
  { rewrite (grow_ostr _ _ _ _ G3), S2. apply ext_ostr; [done|]. apply W. }
  split; [|split; [done|split; [|split; [done|split; [by rewrite A7|split; [|split; [|split; [done|split; [done|]]]]]]]]].
  - exists (num_rows d). split; simpl.
    + rewrite (g_len _ _ _ G3). fold l. unfold l. lia.
    + intros l' Hl'. rewrite (g_str _ _ _ G3). by apply V2.
    + done.
    + intros k s' Hs'. fold l in Hs'. pose proof (Hm3 k) as Hk.
      destruct (m !! k) as [s|] eqn:Ek; [|congruence].
      destruct Hk as (s'' & Hs'' & Hf). rewrite Hs' in Hs''. injection Hs'' as <-.
      destruct (wfn_col _ _ _ _ _ W Ek) as (Hok & Hn & Hr).
      split.
      * eapply fresh_col_ok; [exact Hf|]. apply pick_Forall. by apply col_ok_vals_kind.
      * destruct Hf as (_ & _ & Hf & _). rewrite Hf, pick_length by done.
        by apply (wfn_inds_length _ _ _ W).
    + rewrite A7. simpl. done.
    + unfold inds; simpl. rewrite A7. unfold ilist; simpl. rewrite take_ge by done.
      apply Forall_forall. intros i Hi%elem_of_seq. lia.
    + intros _. unfold inds, num_rows; simpl. rewrite A7. unfold ilist; simpl.
      rewrite take_ge by done. by rewrite seq_length.
    + assert (mask_ok h3 (d_mask e)) as [??]; [|done].
      destruct A8. split; [done|]. unfold marr. rewrite (g_mask _ _ _ G3), (ns_mask _ _ N2). done.
    + unfold num_rows; simpl. rewrite A7, A9. simpl. by rewrite seq_length.
  - unfold abs. simpl. rewrite Hst. f_equal.
    + unfold num_rows; simpl. rewrite A7. simpl. by rewrite seq_length.
    + fold l. apply map_eq. intros k. rewrite !lookup_fmap. pose proof (Hm3 k) as Hk.
      fold m. destruct (m !! k) as [s|] eqn:Ek; [|by rewrite Hk].
      destruct Hk as (s' & -> & Hf). simpl. f_equal. rewrite (fresh_col_vals _ _ _ _ Hf).
      unfold inds; simpl. rewrite A7. unfold ilist; simpl. rewrite take_ge by done.
      destruct (wfn_col _ _ _ _ _ W Ek) as (Hok & Hn & Hr).
      rewrite <- (wfn_inds_length _ _ _ W), <- (pick_length _ _ Hr) at 1. by rewrite pick_seq_all.
  - intros l' Hl'. pose proof (L2 l' Hl'). rewrite A2 in *. done.
  - intros k s' Hs'. simpl in Hs'. fold l in Hs'. pose proof (Hm3 k) as Hk.
    destruct (m !! k) as [s|] eqn:Ek; [|congruence].
    destruct Hk as (s'' & Hs'' & Hf). rewrite Hs' in Hs''. injection Hs'' as <-.
    destruct Hf as ((Hf & _) & _). rewrite (ns_arr _ _ N2), A1 in Hf. done.
  - simpl. fold l. intros k1 k2 s1 s2 Hne H1 H2.
    assert (Hin : forall k s, mp h3 l !! k = Some s -> k ∈ fst <$> map_to_list m).
    { intros k s Hs. pose proof (Hm3 k) as Hk. destruct (m !! k) as [s0|] eqn:Ek; [|congruence].
      apply elem_of_list_fmap. exists (k, s0). split; [done|]. by apply elem_of_map_to_list. }
    eapply (D3 k1 k2); eauto.
Qed.
End frame.
