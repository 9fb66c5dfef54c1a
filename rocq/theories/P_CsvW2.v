(** To1CSV, ToCSVs and ToCSVDir on the heap. *)
From Verif Require Export P_CsvW.
From Verif Require Export P_Utils.

Section frame.
Context {crt : CsvRT}.

(** The order in which NameList lists the names. *)
Definition perm_order (order : nat -> gset string -> list string) : Prop := forall i s, order i s ≡ₚ elements s.
Definition keys_of (order : nat -> gset string -> list string) (t : table) : list key :=
  ((fun c => (KBool, c)) <$> order 0 (of_kind KBool t)) ++ ((fun c => (KInt, c)) <$> order 1 (of_kind KInt t)) ++
  ((fun c => (KFloat, c)) <$> order 2 (of_kind KFloat t)) ++ ((fun c => (KObj, c)) <$> order 3 (t_strs t)).
Lemma keys_of_order order t : perm_order order -> csv_order t (keys_of order t).
Proof. intros P. do 4 eexists. split; [apply P|]. split; [apply P|]. split; [apply P|]. split; [apply P|]. done. Qed.

Lemma of_kind_abs h d k : of_kind k (abs h d) = names_of k (mp h (r_maps (d_raw d))).
Proof.
  apply set_eq. intros c. rewrite elem_of_names_of. unfold of_kind. rewrite elem_of_map. setoid_rewrite elem_of_filter. simpl. rewrite dom_fmap_L.
  setoid_rewrite elem_of_dom. split.
  - intros ([k' c'] & Ec & Ek & Hs). simpl in *. by subst.
  - intros ?. by exists (k, c).
Qed.

Lemma csv_keys_spec order h d : wf h d -> exists h', csv_keys order d h = Ok (keys_of order (abs h d), h') /\
  ext h h' /\ h_arr h' = h_arr h /\ h_map h' = h_map h.
Proof.
  intros [n W]. unfold csv_keys, hd_name_list.
  destruct (kind_header_spec h KBool (d_raw d)) as (x1 & h1 & E1 & X1 & S1 & _ & A1 & M1).
  rewrite (bind_eq _ _ _ _ _ E1). unfold bind at 1. rewrite (bind_eq _ _ h1 (ostr h1 x1) h1) by done. unfold ret at 1. cbv beta iota.
  destruct (kind_header_spec h1 KInt (d_raw d)) as (x2 & h2 & E2 & X2 & S2 & _ & A2 & M2).
  rewrite (bind_eq _ _ _ _ _ E2). unfold bind at 1. rewrite (bind_eq _ _ h2 (ostr h2 x2) h2) by done. unfold ret at 1. cbv beta iota.
  destruct (kind_header_spec h2 KFloat (d_raw d)) as (x3 & h3 & E3 & X3 & S3 & _ & A3 & M3).
  rewrite (bind_eq _ _ _ _ _ E3). unfold bind at 1. rewrite (bind_eq _ _ h3 (ostr h3 x3) h3) by done. unfold ret at 1. cbv beta iota.
  assert (X13 : ext h h3) by (eapply ext_trans; [|exact X3]; by eapply ext_trans).
  destruct (hd_copy_spec h3 (r_strs (d_raw d))) as (x4 & h4 & E4 & X4 & S4 & _ & A4 & M4).
  { intros l Hl. pose proof (prefix_length _ _ (e_str _ _ X13)). pose proof (wf_str _ _ _ W l Hl). lia. }
  unfold string_header. rewrite (bind_eq _ _ _ _ _ E4). unfold bind at 1. rewrite (bind_eq _ _ h4 (ostr h4 x4) h4) by done. unfold ret at 1. cbv beta iota.
  assert (Hm : forall l, mp h1 l = mp h l /\ mp h2 l = mp h l) by (intros l; unfold mp; by rewrite M2, M1).
  assert (Hs : ostr h3 (r_strs (d_raw d)) = ostr h (r_strs (d_raw d))).
  { unfold ostr. destruct (r_strs (d_raw d)) as [l|] eqn:El; [|done]. unfold str. destruct (e_str _ _ X13) as [tl ->].
    rewrite lookup_app_l; [done|]. by apply (wf_str _ _ _ W). }
  exists h4. unfold ret. rewrite S1, S2, S3, S4, Hs, (proj1 (Hm _)), (proj2 (Hm _)).
  unfold keys_of. rewrite !of_kind_abs. split; [done|]. split; [by eapply ext_trans|]. split; congruence.
Qed.

(** The records, by storage position and by row. *)
Lemma records_abs marker h d keys : wf h d ->
  mapM (crecord marker (get_col h (mp h (r_maps (d_raw d))) <$> keys)) (inds d) = t_records marker keys (abs h d).
Proof.
  intros [n W]. unfold t_records.
  assert (Hrow : forall i j, inds d !! i = Some j ->
     crecord marker (get_col h (mp h (r_maps (d_raw d))) <$> keys) j = t_record marker keys (abs h d) i).
  { intros i j Hi. unfold crecord, t_record. induction keys as [|k keys IH]; [done|]. rewrite fmap_cons, !mapM_cons, IH.
    assert (ctext marker j (get_col h (mp h (r_maps (d_raw d))) k) =
      match t_cols (abs h d) !! k with Some col => match col !! i with Some v => cell_text marker v | None => None end | None => None end) as ->; [|done].
    simpl. rewrite lookup_fmap. unfold get_col, ctext. destruct (mp h (r_maps (d_raw d)) !! k) as [s|] eqn:Es; simpl.
    - pose proof (wf_cols _ _ _ W k s Es) as [Hok Hlen]. simpl in *.
      rewrite pick_lookup; [rewrite Hi; simpl; by destruct (sl_vals h s !! j)|].
      rewrite (col_ok_vals_length _ _ _ Hok), Hlen. apply (wf_rng _ _ _ W).
    - unfold sl_vals, nil_slice. simpl. by rewrite ?lookup_nil. }
  assert (Hlen : t_rows (abs h d) = length (inds d)) by (symmetry; exact (wfn_inds_length _ _ _ W)).
  rewrite Hlen. assert (G : forall l n0, (forall i j, l !! i = Some j -> inds d !! (n0 + i) = Some j) ->
    mapM (crecord marker (get_col h (mp h (r_maps (d_raw d))) <$> keys)) l = mapM (t_record marker keys (abs h d)) (seq n0 (length l))).
  { induction l as [|j l IH]; intros n0 Hl; [done|]. cbn [length seq]. rewrite !mapM_cons.
    rewrite (Hrow n0 j) by (rewrite <- (Nat.add_0_r n0); by apply Hl). rewrite (IH (S n0)); [done|].
    intros i j' Hij. rewrite Nat.add_succ_comm. by apply Hl. }
  apply (G (inds d) 0). intros i j. simpl. done.
Qed.
(** When there are no records. *)
Lemma show_none marker v : cell_text marker v = None <-> kind_of v = KObj /\ v <> VObj ONil /\ forall s, v <> VObj (OStr s).
Proof.
  split.
  - destruct v as [o| | |b]; try done; [|by destruct b]. destruct o; try done; intros _; split; try done; split; done.
  - intros (H1 & H2 & H3). destruct v as [o| | |b]; try done. destruct o as [|s|]; try done. by destruct (H3 s).
Qed.
Lemma elem_of_order t keys k : csv_order t keys ->
  k ∈ keys <-> (k.1 <> KObj /\ is_Some (t_cols t !! k)) \/ (k.1 = KObj /\ k.2 ∈ t_strs t).
Proof.
  intros (bl & il & fl & sl & P1 & P2 & P3 & P4 & ->). rewrite !elem_of_app, !elem_of_list_fmap.
  assert (Hk : forall kk l c, l ≡ₚ elements (of_kind kk t) -> c ∈ l <-> is_Some (t_cols t !! (kk, c))).
  { intros kk l c P. rewrite P, elem_of_elements. unfold of_kind. rewrite elem_of_map. setoid_rewrite elem_of_filter.
    setoid_rewrite elem_of_dom. split.
    - intros ([k' c'] & Ec & Ek & Hs). simpl in *. by subst.
    - intros ?. by exists (kk, c). }
  assert (Hs : forall c, c ∈ sl <-> c ∈ t_strs t) by (intros c; by rewrite P4, elem_of_elements).
  destruct k as [kk c]. simpl. split.
  - intros [(c' & [= -> ->] & H)|[(c' & [= -> ->] & H)|[(c' & [= -> ->] & H)|(c' & [= -> ->] & H)]]].
    + left. split; [done|]. by eapply Hk.
    + left. split; [done|]. by eapply Hk.
    + left. split; [done|]. by eapply Hk.
    + right. split; [done|]. by apply Hs.
  - intros [[H1 H2]|[-> H2]].
    + destruct kk; [done| | |].
      * right. right. left. exists c. split; [done|]. by eapply Hk.
      * right. left. exists c. split; [done|]. by eapply Hk.
      * left. exists c. split; [done|]. by eapply Hk.
    + right. right. right. exists c. split; [done|]. by apply Hs.
Qed.
Lemma t_records_none marker keys t : t_ok t -> csv_order t keys -> t_records marker keys t = None <-> unwritable t.
Proof.
  intros Hok Ho. unfold t_records. rewrite mapM_none_iff. split.
  - intros (i & Hi%elem_of_seq & Hr). unfold t_record in Hr. apply mapM_none_iff in Hr as (k & Hk & Hc).
    apply (elem_of_order _ _ _ Ho) in Hk as [[H1 [col H2]]|[H1 H2]].
    + rewrite H2 in Hc. destruct (Hok k col H2) as [Hl Ht].
      destruct (lookup_lt_is_Some_2 col i) as [v Hv]; [lia|]. rewrite Hv in Hc. apply show_none in Hc as (Hkv & _).
      rewrite Forall_lookup in Ht. by rewrite (Ht i v Hv) in Hkv.
    + destruct k as [kk c]. simpl in *. subst kk. exists c. split; [done|].
      destruct (t_cols t !! (KObj, c)) as [col|] eqn:E; [|lia]. destruct (Hok _ col E) as [Hl Ht].
      destruct (lookup_lt_is_Some_2 col i) as [v Hv]; [lia|]. rewrite Hv in Hc. apply show_none in Hc as (_ & ? & ?).
      exists v. split; [by eapply elem_of_list_lookup_2|done].
  - intros (c & Hc & H). destruct (t_cols t !! (KObj, c)) as [col|] eqn:E.
    + destruct H as (v & Hv & H1 & H2). apply elem_of_list_lookup_1 in Hv as [i Hi]. destruct (Hok _ col E) as [Hl Ht].
      exists i. split; [apply elem_of_seq; apply lookup_lt_Some in Hi; lia|]. apply mapM_none_iff. exists (KObj, c).
      split; [apply (elem_of_order _ _ _ Ho); by right|]. rewrite E, Hi. apply show_none. split; [|done].
      rewrite Forall_lookup in Ht. by apply (Ht i).
    + exists 0. split; [apply elem_of_seq; lia|]. apply mapM_none_iff. exists (KObj, c).
      split; [apply (elem_of_order _ _ _ Ho); by right|]. by rewrite E.
Qed.

(** sortIfNeeded *)
Lemma sort_id o d : d_viewed d = false \/ ws_order o = true -> sort_if_needed o d = d.
Proof. intros [H|H]; unfold sort_if_needed; rewrite H; [done|]. by rewrite andb_false_r. Qed.
Lemma sort_wf o h d : wf h d -> wf h (sort_if_needed o d).
Proof.
  intros [n W]. unfold sort_if_needed. destruct (d_viewed d && negb (ws_order o)) eqn:E; [|by exists n].
  apply andb_true_iff in E as [E _]. pose proof (wfn_inds_length _ _ _ W) as Hl. exists n.
  destruct W as [W1 W2 W3 W4 W5 W6 W7 W8 W9].
  split; simpl; try done.
  - unfold inds, ilist. simpl. rewrite take_ge by done. apply Forall_replicate_eq || idtac.
    destruct (num_rows d) as [|m]; [constructor|]. apply Forall_replicate.
    destruct (inds d) as [|i l] eqn:Ei; [done|]. apply Forall_cons in W6 as [? _]. lia.
  - intros H. congruence.
  - unfold num_rows in *. simpl. rewrite replicate_length. done.
Qed.
Lemma sort_rows o d : num_rows (sort_if_needed o d) = num_rows d.
Proof. unfold sort_if_needed. destruct (_ && _); [|done]. unfold num_rows. simpl. apply replicate_length. Qed.
Lemma sort_keys order o h d : keys_of order (abs h (sort_if_needed o d)) = keys_of order (abs h d).
Proof. unfold keys_of. rewrite !of_kind_abs. unfold sort_if_needed. by destruct (_ && _). Qed.

(** To1CSV, in terms of the loop. *)
Lemma to_1csv_run order o h d : wf h d -> exists h',
  ext h h' /\ h_arr h' = h_arr h /\ h_map h' = h_map h /\
  forall flush, to_1csv order flush o d h =
    let d' := sort_if_needed o d in
    let keys := keys_of order (abs h d) in
    match write_batches (num_rows d') flush (ws_marker o) (get_col h (mp h (r_maps (d_raw d'))) <$> keys) 0 (inds d')
            (replicate batch_rows (replicate (length keys) "")) [] [snd <$> keys] with
    | Ok r => Ok (r, h')
    | Panic => Panic
    end.
Proof.
  intros W. destruct (csv_keys_spec order h (sort_if_needed o d) (sort_wf o h d W)) as (h' & E & X & A & Mm).
  exists h'. split; [done|]. split; [done|]. split; [done|]. intros flush. unfold to_1csv. cbv zeta.
  rewrite (bind_eq _ _ _ _ _ E). rewrite sort_keys.
  rewrite (bind_eq _ _ h' (mp h' (r_maps (d_raw (sort_if_needed o d)))) h') by done. cbv beta.
  assert (mp h' (r_maps (d_raw (sort_if_needed o d))) = mp h (r_maps (d_raw (sort_if_needed o d)))) as -> by (unfold mp; by rewrite Mm).
  assert (forall m k, get_col h' m k = get_col h m k) as Hg by (intros m k; unfold get_col, sl_vals, arr; by rewrite A).
  assert (get_col h' (mp h (r_maps (d_raw (sort_if_needed o d)))) <$> keys_of order (abs h d) =
          get_col h (mp h (r_maps (d_raw (sort_if_needed o d)))) <$> keys_of order (abs h d)) as ->; [|done].
  apply list_fmap_ext. intros i k _. apply Hg.
Qed.

Lemma to_1csv_all order o h d : wf h d -> perm_order order -> exists h', ext h h' /\ h_arr h' = h_arr h /\ h_map h' = h_map h /\
  forall flush, (forall j, flush j = true) ->
  to_1csv order flush o d h =
    match t_records (ws_marker o) (keys_of order (abs h d)) (abs h (sort_if_needed o d)) with
    | Some rows => Ok ((snd <$> keys_of order (abs h d)) :: rows, false, h')
    | None => Panic
    end.
Proof.
  intros W P. destruct (to_1csv_run order o h d W) as (h' & X & A & Mm & E). exists h'. split; [done|]. split; [done|]. split; [done|].
  intros flush Hf. rewrite E. cbv zeta. set (d' := sort_if_needed o d). assert (W' : wf h d') by (by apply sort_wf).
  rewrite (write_batches_all _ _ _ (length (keys_of order (abs h d))) _ Hf).
  - rewrite (records_abs (ws_marker o) h d' (keys_of order (abs h d)) W'). by destruct (t_records _ _ _).
  - apply fmap_length.
  - destruct W' as [n W']. by rewrite (wfn_inds_length _ _ _ W').
  - apply replicate_length.
  - apply Forall_replicate, replicate_length.
Qed.

Lemma to_1csv_fail order o h d n : wf h d -> perm_order order -> batch_rows * n < num_rows d -> exists h', ext h h' /\
  forall flush rows, flush n = false -> (forall i, i < n -> flush i = true) ->
  t_records (ws_marker o) (keys_of order (abs h d)) (abs h (sort_if_needed o d)) = Some rows ->
  to_1csv order flush o d h =
    Ok (if decide (n = 0) then [] else (snd <$> keys_of order (abs h d)) :: take (batch_rows * n) rows, true, h').
Proof.
  intros W P Hn. destruct (to_1csv_run order o h d W) as (h' & X & A & Mm & E). exists h'. split; [done|].
  intros flush rows Hf Hl Hr. rewrite E. cbv zeta. set (d' := sort_if_needed o d) in *. assert (W' : wf h d') by (by apply sort_wf).
  rewrite <- (records_abs (ws_marker o) h d' (keys_of order (abs h d)) W') in Hr.
  assert (Hi : length (inds d') = num_rows d') by (destruct W' as [m W']; by rewrite (wfn_inds_length _ _ _ W')).
  rewrite (write_batches_fail _ _ _ (length (keys_of order (abs h d))) n (fmap_length _ _) Hf n 0 _ _ _ _ _ rows); try done.
  - intros i _ Hi'. by apply Hl.
  - by rewrite Hi.
  - rewrite Hi. unfold d'. by rewrite sort_rows.
  - apply Forall_replicate, replicate_length.
Qed.
Lemma to_1csv_empty order o h d : wf h d -> num_rows d = 0 -> exists h', ext h h' /\
  forall flush, to_1csv order flush o d h = Ok (if flush 0 then [snd <$> keys_of order (abs h d)] else [], false, h').
Proof.
  intros W Hn. destruct (to_1csv_run order o h d W) as (h' & X & A & Mm & E). exists h'. split; [done|]. intros flush. rewrite E. cbv zeta.
  assert (inds (sort_if_needed o d) = []) as ->.
  { apply nil_length_inv. destruct (sort_wf o h d W) as [m W']. rewrite (wfn_inds_length _ _ _ W'), sort_rows. done. }
  rewrite write_batches_none. done.
Qed.

(** The rows that are written if the order need not be kept. *)
Lemma sort_repeats marker keys o h d : wf h d -> d_viewed d = true -> ws_order o = false ->
  forall rows, t_records marker keys (abs h (sort_if_needed o d)) = Some rows -> exists r, rows = replicate (num_rows d) r.
Proof.
  intros W Hv Ho rows. rewrite <- records_abs by (by apply sort_wf). unfold sort_if_needed. rewrite Hv, Ho. simpl.
  assert (inds (set_ind (view d) (mk_ind (replicate (num_rows d) 0))) = replicate (num_rows d) 0) as ->.
  { unfold inds, ilist. simpl. by rewrite take_ge. }
  set (cols := get_col h _ <$> keys). intros Hr.
  destruct (num_rows d) as [|m]; [exists []; simpl in Hr; by injection Hr as <-|].
  cbn [replicate] in Hr. rewrite mapM_cons in Hr. destruct (crecord marker cols 0) as [r|] eqn:Er; [|done].
  exists r. assert (G : forall m, mapM (crecord marker cols) (replicate m 0) = Some (replicate m r)).
  { clear -Er. induction m as [|m IH]; [done|]. cbn [replicate]. by rewrite mapM_cons, Er, IH. }
  rewrite G in Hr. injection Hr as <-. done.
Qed.

(** ToCSVs *)
Context {rt : GoRT}.
Lemma write_parts_all order flush o dfs : ws_order o = true -> (forall i, perm_order (order i)) -> (forall i j, flush i j = true) ->
  forall n i h, i + n = length dfs -> Forall (wf h) dfs ->
  match write_parts order flush o i n dfs h with
  | Ok (l, h') => ext h h' /\ length l = n /\ Forall (fun p => p.2 = false) l /\
      forall j p v, l !! j = Some p -> dfs !! (i + j) = Some v ->
        exists rows, t_records (ws_marker o) (keys_of (order (i + j)) (abs h v)) (abs h v) = Some rows /\
          p.1 = (snd <$> keys_of (order (i + j)) (abs h v)) :: rows
  | Panic => exists v, v ∈ dfs /\ unwritable (abs h v)
  end.
Proof.
  intros Ho Hp Hf. induction n as [|n IH]; intros i h Hi F.
  { cbn [write_parts]. unfold ret. split; [by apply ext_refl|]. split; [done|]. split; [constructor|]. done. }
  cbn [write_parts]. destruct (lookup_lt_is_Some_2 dfs i) as [v Hv]; [lia|]. rewrite Hv.
  assert (Wv : wf h v) by (by eapply Forall_lookup_1).
  destruct (to_1csv_all (order i) o h v Wv (Hp i)) as (h1 & X1 & A1 & M1 & E1). specialize (E1 (flush i) (Hf i)).
  rewrite sort_id in E1 by (by right).
  destruct (t_records (ws_marker o) (keys_of (order i) (abs h v)) (abs h v)) as [rows|] eqn:Er.
  2: { unfold bind. rewrite E1. exists v. split; [by eapply elem_of_list_lookup_2|].
       eapply t_records_none; [by apply abs_ok|by apply keys_of_order|exact Er]. }
  rewrite (bind_eq _ _ _ _ _ E1). specialize (IH (S i) h1 ltac:(lia)).
  assert (F1 : Forall (wf h1) dfs) by (eapply Forall_impl; [exact F|]; intros w; by apply ext_wf).
  specialize (IH F1). assert (Ha : forall w, w ∈ dfs -> abs h1 w = abs h w).
  { intros w Hw. apply ext_abs; [done|]. rewrite Forall_forall in F. by apply F. }
  unfold bind at 1. destruct (write_parts order flush o (S i) n dfs h1) as [[l h2]|].
  - unfold ret. destruct IH as (X2 & L2 & F2 & R2). split; [by eapply ext_trans|]. split; [simpl; lia|]. split; [by constructor|].
    intros [|j] p w Hl Hw.
    + injection Hl as <-. rewrite Nat.add_0_r in *. assert (w = v) as -> by congruence. exists rows. done.
    + simpl in Hl. rewrite Nat.add_succ_r in Hw |- *. destruct (R2 j p w Hl Hw) as (rows2 & E2 & E3).
      rewrite Ha in E2, E3 by (by eapply elem_of_list_lookup_2). exists rows2. done.
  - destruct IH as (w & Hw & Hu). exists w. split; [done|]. by rewrite Ha in Hu.
Qed.

Lemma unwritable_part parts t p : t_ok t -> Forall t_ok parts -> t_concat parts t -> p ∈ parts -> unwritable p -> unwritable t.
Proof.
  intros Ht Hp (C1 & C2 & C3) Hi (c & Hc & Hu). rewrite Forall_forall in C2. destruct (C2 p Hi) as (D1 & D2 & _).
  exists c. split; [by rewrite <- D2|]. destruct (t_cols t !! (KObj, c)) as [col|] eqn:E.
  - assert (is_Some (t_cols p !! (KObj, c))) as [colp Ep] by (apply elem_of_dom; rewrite D1; apply elem_of_dom; by eexists).
    rewrite Ep in Hu. destruct Hu as (v & Hv & Hn). exists v. split; [|done]. rewrite <- (C3 _ _ E).
    apply elem_of_list_In, in_concat. exists colp. rewrite <- !elem_of_list_In. split; [|done]. apply elem_of_list_fmap. exists p. by rewrite Ep.
  - assert (t_cols p !! (KObj, c) = None) as Ep.
    { apply not_elem_of_dom. rewrite D1. by apply not_elem_of_dom. }
    rewrite Ep in Hu. rewrite C1. clear -Hu Hi. induction parts as [|q parts IH]; [by apply elem_of_nil in Hi|].
    rewrite fmap_cons. simpl. apply elem_of_cons in Hi as [->|Hi]; [lia|]. specialize (IH Hi). lia.
Qed.
End frame.
