(** Cell-level reads and writes. *)
From Verif Require Export P_View3.

(** The cell of a table, and where the cell of a dataframe is stored. *)
Definition t_cell (t : table) (k : key) (j : nat) : option val :=
  c ← t_cols t !! k; c !! j.
Definition cell_of (h : heap) (d : dframe) (k : key) (j : nat) : option (nat * nat) :=
  s ← mp h (r_maps (d_raw d)) !! k; i ← inds d !! j; Some (s_arr s, s_off s + i).
Definition cell_val (h : heap) (a : nat * nat) : option val := arr h a.1 !! a.2.

Definition same_shape (t t' : table) : Prop :=
  t_rows t' = t_rows t /\ dom (t_cols t') = dom (t_cols t) /\ t_strs t' = t_strs t /\
  t_enc t' = t_enc t /\ t_cpu t' = t_cpu t.
Global Instance same_shape_refl : Reflexive same_shape.
Proof. intros t. by unfold same_shape. Qed.
Global Instance same_shape_trans : Transitive same_shape.
Proof. intros t1 t2 t3 H1 H2. unfold same_shape in *. naive_solver congruence. Qed.

Lemma table_ext t t' : t_ok t -> t_ok t' -> same_shape t t' ->
  (forall k j, t_cell t' k j = t_cell t k j) -> t' = t.
Proof.
  intros Hok Hok' (H1 & H2 & H3 & H4 & H5) Hc.
  destruct t as [n cols st e cpu], t' as [n' cols' st' e' cpu']. simpl in *. subst. f_equal.
  apply map_eq. intros k.
  destruct (cols !! k) as [c|] eqn:E.
  - destruct (cols' !! k) as [c'|] eqn:E'.
    + f_equal. apply list_eq. intros j. specialize (Hc k j). unfold t_cell in Hc. simpl in Hc.
      by rewrite E, E' in Hc.
    + apply not_elem_of_dom in E'. apply (elem_of_dom_2 cols) in E. set_solver.
  - destruct (cols' !! k) as [c'|] eqn:E'; [|done].
    apply not_elem_of_dom in E. apply (elem_of_dom_2 cols') in E'. set_solver.
Qed.

Lemma sl_vals_lookup h s i : i < s_len s -> sl_vals h s !! i = arr h (s_arr s) !! (s_off s + i).
Proof. intros Hi. unfold sl_vals. by rewrite lookup_take, lookup_drop. Qed.

Lemma t_cell_abs h d k j : wf h d -> t_cell (abs h d) k j = cell_of h d k j ≫= cell_val h.
Proof.
  intros [n W]. unfold t_cell, cell_of. simpl. rewrite lookup_fmap.
  destruct (mp h (r_maps (d_raw d)) !! k) as [s|] eqn:E; [|done]. simpl.
  destruct (wfn_col _ _ _ _ _ W E) as (Hok & Hn & Hr).
  rewrite pick_lookup by done. destruct (inds d !! j) as [i|] eqn:Ei; [|done]. simpl.
  unfold cell_val. simpl. apply sl_vals_lookup.
  pose proof (Forall_lookup_1 _ _ _ _ (wf_rng _ _ _ W) Ei). simpl in *. lia.
Qed.

(** Cells of well-formed dataframes exist and have their column's type. *)
Lemma cell_of_valid h d k j a : wf h d -> cell_of h d k j = Some a ->
  a.1 < length (h_arr h) /\ exists v, cell_val h a = Some v /\ kind_of v = k.1.
Proof.
  intros [n W] Ha. unfold cell_of in Ha.
  destruct (mp h (r_maps (d_raw d)) !! k) as [s|] eqn:E; [|done]. simpl in Ha.
  destruct (inds d !! j) as [i|] eqn:Ei; [|done]. simpl in Ha. injection Ha as <-. simpl.
  destruct (wfn_col _ _ _ _ _ W E) as (Hok & Hn & Hr).
  pose proof (Forall_lookup_1 _ _ _ _ (wf_rng _ _ _ W) Ei) as Hi. simpl in Hi.
  pose proof (Forall_lookup_1 _ _ _ _ Hr Ei) as Hi2. simpl in Hi2.
  destruct (lookup_lt_is_Some_2 _ _ Hi2) as [v Hv].
  pose proof (Forall_lookup_1 _ _ _ _ (col_ok_vals_kind _ _ _ Hok) Hv) as Hk. simpl in Hk.
  rewrite sl_vals_lookup in Hv by lia. split.
  - destruct (decide (s_arr s < length (h_arr h))) as [|Hge]; [done|].
    rewrite arr_ge in Hv by lia. done.
  - exists v. done.
Qed.

(** Only cell contents change, each keeping its type. *)
Record wrt (h h' : heap) : Prop := {
  w_mask : h_mask h' = h_mask h; w_map : h_map h' = h_map h;
  w_str : h_str h' = h_str h; w_shr : h_shr h' = h_shr h;
  w_narr : length (h_arr h') = length (h_arr h);
  w_kinds : forall a, kind_of <$> arr h' a = kind_of <$> arr h a }.
Global Instance wrt_refl : Reflexive wrt.
Proof. intros h. by split. Qed.
Global Instance wrt_trans : Transitive wrt.
Proof. intros h1 h2 h3 [] []. split; congruence. Qed.

Lemma wrt_mp h h' l : wrt h h' -> mp h' l = mp h l.
Proof. intros []. unfold mp. by rewrite w_map0. Qed.
Lemma wrt_ostr h h' o : wrt h h' -> ostr h' o = ostr h o.
Proof. intros []. unfold ostr, str. by rewrite w_str0. Qed.
Lemma wrt_oshr h h' o : wrt h h' -> oshr h' o = oshr h o.
Proof. intros []. unfold oshr, shrd. by rewrite w_shr0. Qed.
Lemma wrt_len h h' a : wrt h h' -> length (arr h' a) = length (arr h a).
Proof. intros H. pose proof (w_kinds _ _ H a) as E%(f_equal length). by rewrite !fmap_length in E. Qed.

Lemma Forall_kind k (l l' : list val) : kind_of <$> l' = kind_of <$> l ->
  Forall (fun v => kind_of v = k) l -> Forall (fun v => kind_of v = k) l'.
Proof.
  intros E H. apply (Forall_fmap kind_of (fun x => x = k)). rewrite E.
  by apply (Forall_fmap kind_of (fun x => x = k)).
Qed.
Lemma wrt_col_ok h h' k s : wrt h h' -> col_ok h k s -> col_ok h' k s.
Proof.
  intros H (H1 & H2 & H3). split; [done|]. split; [by rewrite (wrt_len _ _ _ H)|].
  eapply Forall_kind; [|exact H3]. rewrite !fmap_take, !fmap_drop. by rewrite (w_kinds _ _ H).
Qed.
Lemma wrt_wfn h h' d n : wrt h h' -> wfn h d n -> wfn h' d n.
Proof.
  intros H W. destruct W. split; try done.
  - by rewrite (w_map _ _ H).
  - intros l Hl. rewrite (w_str _ _ H). by apply wf_str.
  - intros l Hl. rewrite (w_shr _ _ H). by apply wf_shr.
  - rewrite (wrt_mp _ _ _ H). intros k s Hk. destruct (wf_cols k s Hk). split; [|done].
    by eapply wrt_col_ok.
  - destruct wf_mask. split; [done|]. unfold marr. by rewrite (w_mask _ _ H).
Qed.
Lemma wrt_wf h h' d : wrt h h' -> wf h d -> wf h' d.
Proof. intros H [n W]. exists n. by eapply wrt_wfn. Qed.
Lemma wrt_shape h h' d : wrt h h' -> same_shape (abs h d) (abs h' d).
Proof.
  intros H. unfold same_shape, abs. simpl. rewrite !dom_fmap_L.
  rewrite (wrt_mp _ _ _ H), (wrt_ostr _ _ _ H). done.
Qed.
Lemma wrt_cell_of h h' d k j : wrt h h' -> cell_of h' d k j = cell_of h d k j.
Proof. intros H. unfold cell_of. by rewrite (wrt_mp _ _ _ H). Qed.

(** A dataframe none of whose cells changed shows the same table. *)
Lemma wrt_abs h h' d : wrt h h' -> wf h d ->
  (forall k j a, cell_of h d k j = Some a -> cell_val h' a = cell_val h a) ->
  abs h' d = abs h d.
Proof.
  intros H W Hc. apply table_ext.
  - by apply abs_ok.
  - apply abs_ok. by eapply wrt_wf.
  - by apply wrt_shape.
  - intros k j. rewrite !t_cell_abs by (done || by eapply wrt_wf).
    rewrite (wrt_cell_of _ _ _ _ _ H). destruct (cell_of h d k j) as [a|] eqn:E; [|done].
    simpl. by eapply Hc.
Qed.

(** One cell is overwritten. *)
Definition upd (h : heap) (a : nat * nat) (v : val) : heap :=
  set_arr h a.1 (<[a.2 := v]> (arr h a.1)).
Lemma upd_cell_val h a v b : a.1 < length (h_arr h) -> a.2 < length (arr h a.1) ->
  cell_val (upd h a v) b = if decide (b = a) then Some v else cell_val h b.
Proof.
  intros H1 H2. unfold cell_val, upd, set_arr, arr. simpl. destruct a as [a i], b as [b j]. simpl in *.
  destruct (decide (b = a)) as [->|Hb].
  - rewrite list_lookup_insert by done. simpl. destruct (decide (j = i)) as [->|Hj].
    + rewrite decide_True by done. by rewrite list_lookup_insert.
    + rewrite decide_False by congruence. by rewrite list_lookup_insert_ne.
  - rewrite list_lookup_insert_ne by done. by rewrite decide_False by congruence.
Qed.
Lemma upd_wrt h a v w : cell_val h a = Some w -> kind_of v = kind_of w -> wrt h (upd h a v).
Proof.
  intros Hw Hk. split; try done.
  - simpl. by rewrite insert_length.
  - intros b. unfold upd, set_arr, arr. simpl. destruct (decide (b = a.1)) as [->|Hb].
    + destruct (decide (a.1 < length (h_arr h))) as [Hl|Hl].
      * rewrite list_lookup_insert by done. simpl. rewrite list_fmap_insert.
        apply list_insert_id. rewrite list_lookup_fmap. unfold cell_val, arr in Hw. rewrite Hw.
        simpl. by rewrite Hk.
      * rewrite list_insert_ge by lia. done.
    + by rewrite list_lookup_insert_ne.
Qed.

Section frame.
Context {rt : GoRT}.

Lemma set_cell_spec h d k c row v : wf h d -> kind_of v = k ->
  match set_cell k d c row v h with
  | Ok (_, h') => exists a, (0 <= row)%Z /\ cell_of h d (k, c) (Z.to_nat row) = Some a /\
      h' = upd h a v /\ wrt h h' /\
      (forall b, cell_val h' b = if decide (b = a) then Some v else cell_val h b)
  | Panic => (row < 0 \/ Z.of_nat (num_rows d) <= row)%Z \/ t_cols (abs h d) !! (k, c) = None
  end.
Proof.
  intros W Hk. pose proof W as [n Wn]. unfold set_cell, access, acc_set.
  unfold bind, get_mp, lift, ret. simpl.
  destruct (mp h (r_maps (d_raw d)) !! (k, c)) as [s|] eqn:E.
  2:{ right. simpl. by rewrite lookup_fmap, E. }
  destruct (idx (inds d) row) as [i|] eqn:Ei.
  2:{ apply idx_panic in Ei. left. rewrite (wfn_inds_length _ _ _ Wn) in Ei. done. }
  apply idx_ok in Ei as [H0 Ei]. unfold sl_wr.
  destruct (wfn_col _ _ _ _ _ Wn E) as (Hok & Hn & Hr).
  pose proof (Forall_lookup_1 _ _ _ _ (wf_rng _ _ _ Wn) Ei) as Hi. simpl in Hi.
  rewrite decide_True by lia.
  assert (Hc : cell_of h d (k, c) (Z.to_nat row) = Some (s_arr s, s_off s + i)).
  { unfold cell_of. rewrite E. simpl. by rewrite Ei. }
  destruct (cell_of_valid _ _ _ _ _ W Hc) as (Hl & w & Hw & Hkw). simpl in Hl, Hkw.
  exists (s_arr s, s_off s + i). split; [done|]. split; [done|]. split; [done|].
  split; [apply (upd_wrt h (s_arr s, s_off s + i) v w); [done|congruence]|].
  intros b. apply (upd_cell_val h (s_arr s, s_off s + i) v b); [done|].
  simpl. by apply lookup_lt_Some in Hw.
Qed.
End frame.
