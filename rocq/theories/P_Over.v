(** Overwrite*. *)
From Verif Require Export P_Struct3.

(** Values written row by row: what ends up at position [i]. *)
Definition last_write (ix : list nat) (vs : list val) (i : nat) (v : val) : Prop :=
  exists j, ix !! j = Some i /\ vs !! j = Some v /\
    forall j', j < j' -> ix !! j' <> Some i.

Lemma col_ok_cell h k s i : col_ok h k s -> i < s_len s ->
  exists v, cell_val h (s_arr s, s_off s + i) = Some v /\ kind_of v = k /\
    s_arr s < length (h_arr h).
Proof.
  intros Hok Hi. pose proof (col_ok_vals_length _ _ _ Hok) as Hl.
  assert (Hi2 : i < length (sl_vals h s)) by lia.
  destruct (lookup_lt_is_Some_2 _ _ Hi2) as [v Hv]. exists v.
  pose proof (Forall_lookup_1 _ _ _ _ (col_ok_vals_kind _ _ _ Hok) Hv) as Hk.
  rewrite sl_vals_lookup in Hv by lia. split; [done|]. split; [done|].
  destruct (decide (s_arr s < length (h_arr h))) as [|Hge]; [done|].
  rewrite arr_ge in Hv by lia. done.
Qed.

Lemma write_loop_spec s k ix : forall vs h, col_ok h k s -> Forall (fun i => i < s_len s) ix ->
  Forall (fun v => kind_of v = k) vs ->
  match write_loop s ix vs h with
  | Ok (_, h') => length ix <= length vs /\ wrt h h' /\
      (forall a, (forall i, i ∈ ix -> a <> (s_arr s, s_off s + i)) -> cell_val h' a = cell_val h a) /\
      (forall i, i ∈ ix -> exists v, last_write ix vs i v /\
          cell_val h' (s_arr s, s_off s + i) = Some v)
  | Panic => length vs < length ix
  end.
Proof.
  induction ix as [|i ix IH]; intros vs h Hok Hix Hvs.
  { simpl. split; [lia|]. split; [done|]. split; [done|]. intros i Hi. by apply elem_of_nil in Hi. }
  destruct vs as [|v vs]; [simpl; lia|].
  apply Forall_cons in Hix as [Hi Hix]. apply Forall_cons in Hvs as [Hv Hvs].
  simpl. destruct (col_ok_cell h k s i Hok Hi) as (w & Hw & Hkw & Ha).
  set (a0 := (s_arr s, s_off s + i)) in *.
  assert (E1 : sl_wr s i v h = Ok (tt, upd h a0 v)).
  { unfold sl_wr. by rewrite decide_True. }
  rewrite (bind_eq _ _ _ _ _ E1).
  assert (Hw0 : wrt h (upd h a0 v)) by (eapply upd_wrt; [done|congruence]).
  assert (Hc0 : forall b, cell_val (upd h a0 v) b = if decide (b = a0) then Some v else cell_val h b).
  { intros b. apply upd_cell_val; [done|]. unfold cell_val in Hw. by apply lookup_lt_Some in Hw. }
  specialize (IH vs (upd h a0 v) (wrt_col_ok _ _ _ _ Hw0 Hok) Hix Hvs).
  destruct (write_loop s ix vs (upd h a0 v)) as [[[] h']|]; [|simpl; lia].
  destruct IH as (Hl & Hw1 & Hc & Hr). split; [simpl; lia|]. split; [by etrans|]. split.
  - intros a Hna. rewrite Hc by (intros; apply Hna; set_solver). rewrite Hc0.
    rewrite decide_False; [done|]. apply Hna. set_solver.
  - intros i' Hi'. destruct (decide (i' ∈ ix)) as [Hin|Hnin].
    + destruct (Hr i' Hin) as (v' & (j & H1 & H2 & H3) & H4). exists v'. split; [|done].
      exists (S j). split; [done|]. split; [done|]. intros [|j'] Hj'; [lia|]. simpl. apply H3. lia.
    + assert (i' = i) as -> by set_solver. exists v. split.
      * exists 0. split; [done|]. split; [done|]. intros [|j'] Hj'; [lia|]. simpl. intros Hx.
        apply Hnin. by eapply elem_of_list_lookup_2.
      * rewrite Hc; [|intros i2 Hi2 E; unfold a0 in E; injection E; intros; assert (i2 = i) by lia; congruence].
        rewrite Hc0, decide_True by done. done.
Qed.

Lemma last_write_nodup ix vs i v j : NoDup ix -> last_write ix vs i v -> ix !! j = Some i -> vs !! j = Some v.
Proof.
  intros Hnd (j' & H1 & H2 & _) Hj. by rewrite (NoDup_lookup _ _ _ _ Hnd Hj H1).
Qed.

Lemma t_alloc_one k c t : t_alloc k [c] t =
  t_with_cols t (<[(k, c) := replicate (t_rows t) (zero_of k)]> (t_cols t)).
Proof.
  transitivity (t_with_cols t (t_cols (t_alloc k [c] t))); [done|].
  f_equal. apply map_eq. intros k'. rewrite t_alloc_lookup.
  destruct k' as [kk cc]. simpl. destruct (decide _) as [[-> H]|H].
  - apply elem_of_list_singleton in H as ->. by rewrite lookup_insert.
  - rewrite lookup_insert_ne; [done|]. intros [= -> ->]. apply H. set_solver.
Qed.

Section frame.
Context {rt : GoRT}.

(** Writing a whole column of a dataframe. *)
Lemma write_column_spec h d n k c s vs : wfn h d n -> mp h (r_maps (d_raw d)) !! (k, c) = Some s ->
  Forall (fun v => kind_of v = k) vs ->
  match write_loop s (inds d) vs h with
  | Ok (_, h') => num_rows d <= length vs /\ wrt h h' /\
      (forall a, (forall j, cell_of h d (k, c) j <> Some a) -> cell_val h' a = cell_val h a) /\
      (forall j i, inds d !! j = Some i -> exists a v, cell_of h d (k, c) j = Some a /\
         last_write (inds d) vs i v /\ cell_val h' a = Some v)
  | Panic => length vs < num_rows d
  end.
Proof.
  intros W Hs Hv. destruct (wf_cols _ _ _ W _ _ Hs) as [Hok Hn]. simpl in Hok.
  pose proof (write_loop_spec s k (inds d) vs h Hok) as H.
  rewrite <- (wfn_inds_length _ _ _ W).
  assert (Hr : Forall (fun i => i < s_len s) (inds d)) by (rewrite Hn; apply W).
  specialize (H Hr Hv). destruct (write_loop s (inds d) vs h) as [[[] h']|]; [|done].
  destruct H as (H1 & H2 & H3 & H4). split; [done|]. split; [done|]. split.
  - intros a Ha. apply H3. intros i Hi ->. apply elem_of_list_lookup in Hi as [j Hj].
    apply (Ha j). unfold cell_of. rewrite Hs. simpl. by rewrite Hj.
  - intros j i Hj. destruct (H4 i) as (v & H5 & H6); [by eapply elem_of_list_lookup_2|].
    exists (s_arr s, s_off s + i), v. split; [|done]. unfold cell_of. rewrite Hs. simpl. by rewrite Hj.
Qed.

(** The written column, when no row is repeated. *)
Lemma written_column h d n k c s vs h' : wfn h d n -> mp h (r_maps (d_raw d)) !! (k, c) = Some s ->
  Forall (fun v => kind_of v = k) vs -> NoDup (inds d) ->
  write_loop s (inds d) vs h = Ok (tt, h') ->
  t_cols (abs h' d) !! (k, c) = Some (take (num_rows d) vs).
Proof.
  intros W Hs Hv Hnd E. pose proof (write_column_spec h d n k c s vs W Hs Hv) as H.
  rewrite E in H. destruct H as (H1 & H2 & H3 & H4).
  assert (Hc : is_Some (t_cols (abs h' d) !! (k, c))).
  { rewrite abs_cols_lookup, (wrt_mp _ _ _ H2), Hs. eauto. }
  destruct Hc as [col Hc]. rewrite Hc. f_equal.
  assert (W' : wf h' d) by (exists n; by eapply wrt_wfn).
  destruct (abs_ok _ _ W' _ _ Hc) as [Hl _]. simpl in Hl.
  pose proof (wfn_inds_length _ _ _ W) as HL.
  apply list_eq_same_length with (num_rows d); [rewrite take_length; lia|done|].
  intros j x y Hj Hx Hy. rewrite lookup_take in Hy by done.
  assert (Hj2 : j < length (inds d)) by lia.
  destruct (lookup_lt_is_Some_2 _ _ Hj2) as [i Hi].
  destruct (H4 j i Hi) as (a & v & Ha & Hlw & Hcv).
  pose proof (last_write_nodup _ _ _ _ _ Hnd Hlw Hi) as Hvj.
  pose proof (t_cell_abs h' d (k, c) j W') as Ht. unfold t_cell in Ht. rewrite Hc in Ht. simpl in Ht.
  rewrite (wrt_cell_of _ _ _ _ _ H2), Ha in Ht. simpl in Ht. congruence.
Qed.

(** OverwriteX on a column that exists and has allocated rows. *)
Lemma overwrite_existing h d n k strs c vs s : wfn h d n ->
  mp h (r_maps (d_raw d)) !! (k, c) = Some s -> s_len s <> 0 ->
  overwrite k strs d c vs h =
  match write_loop s (inds d) vs h with Ok (_, h') => Ok (d, h') | Panic => Panic end.
Proof.
  intros W Hs Hn. unfold overwrite. rewrite (bind_eq _ _ h (mp h (r_maps (d_raw d))) h) by done.
  rewrite Hs. simpl. rewrite decide_False by done. unfold bind. by destruct (write_loop _ _ _ _) as [[[] ?]|].
Qed.

(** What the allocation before the writes gives. *)
Lemma overwrite_alloc h d k (strs : bool) c : wf h d -> t_cols (abs h d) <> ∅ \/ num_rows d = 0 ->
  (strs = true -> k = KObj) ->
  exists r1 h1, (if strs then alloc_strings (d_raw d) [c] else alloc_cols k (d_raw d) [c]) h = Ok (r1, h1) /\
    wf h1 (set_raw d r1) /\
    abs h1 (set_raw d r1) = (if strs then t_mark {[c]} else id) (t_alloc k [c] (abs h d)) /\
    (t_cols (abs h d) <> ∅ -> stable h h1) /\
    (r_sharedMaps (d_raw d) = true -> strs = false \/ r_strs (d_raw d) = None -> ext h h1).
Proof.
  intros W Hne Hk. destruct strs.
  - rewrite (Hk eq_refl).
    destruct (alloc_strings_df h d [c] W Hne) as (r1 & h1 & E1 & W1 & A1 & S1 & X1).
    exists r1, h1. split; [done|]. split; [done|]. split.
    { rewrite A1. f_equal. set_solver. }
    split; [done|]. intros Hs [?|?]; [done|]. by apply X1.
  - destruct (alloc_cols_df h d k [c] W Hne) as (r1 & h1 & E1 & W1 & A1 & S1 & X1 & _).
    exists r1, h1. split; [done|]. split; [done|]. split; [done|]. split; [done|]. intros Hs _. by apply X1.
Qed.

(** The allocated column is fresh. *)
Lemma overwrite_alloc_fresh h d k (strs : bool) c r1 h1 : wf h d -> (strs = true -> k = KObj) ->
  (if strs then alloc_strings (d_raw d) [c] else alloc_cols k (d_raw d) [c]) h = Ok (r1, h1) ->
  exists s, mp h1 (r_maps r1) !! (k, c) = Some s /\ length (h_arr h) <= s_arr s < length (h_arr h1) /\
   (forall k', k' <> (k, c) -> mp h1 (r_maps r1) !! k' = mp h (r_maps (d_raw d)) !! k').
Proof.
  intros [n W] Hk E. 
  assert (Hst : exists r2 h2, alloc_cols k (d_raw d) [c] h = Ok (r2, h2) /\ r_maps r1 = r_maps r2 /\
     h_arr h1 = h_arr h2 /\ h_map h1 = h_map h2).
  { destruct strs.
    - rewrite (Hk eq_refl). unfold alloc_strings in E. rewrite bool_decide_eq_false_2 in E by done.
      apply bind_ok in E as (r0 & h0 & E0 & E). apply bind_ok in E as (r2 & h2 & E2 & E).
      apply bind_ok in E as (st & h3 & E3 & E). apply ret_ok in E as [<- <-].
      destruct (own_change h d n W) as (r1' & h1' & E1 & _ & _ & _ & _ & _ & _ & _ & A5 & _).
      rewrite E1 in E0. injection E0 as -> ->.
      exists r2, h2. split; [by rewrite (alloc_cols_eq KObj (d_raw d) [c] h _ _ ltac:(done) E1 A5)|].
      split; [done|]. unfold str_add in E3. destruct (decide _).
      + apply ret_ok in E3 as [_ <-]. done.
      + destruct (r_strs r2); [by injection E3 as _ <-|].
        apply bind_ok in E3 as (? & ? & E3 & E4). injection E3 as _ <-. by apply ret_ok in E4 as [_ <-].
    - exists r1, h1. done. }
  destruct Hst as (r2 & h2 & E2 & Q1 & Q2 & Q3).
  destruct (alloc_cols_spec k (d_raw d) [c] h) as
    (r' & h' & E' & A1 & A2 & A3 & A4 & A5 & A6 & A7 & A8 & A9 & A9b & A10 & A11);
    [apply W|intros l Hl; by apply (wf_shr _ _ _ W)|].
  rewrite E2 in E'. injection E' as -> ->.
  destruct (A11 c) as (s & S1 & S2); [set_solver|]. exists s.
  unfold mp. rewrite Q1, Q3, Q2. fold (mp h' (r_maps r')). split; [done|]. split; [apply S2|].
  intros k' Hk'. apply A10. destruct k' as [kk cc]. simpl.
  destruct (decide (kk = k)) as [->|]; [right|by left]. set_solver.
Qed.

(** OverwriteX creating the column. *)
Lemma overwrite_create h d k strs c vs : wf h d -> t_cols (abs h d) <> ∅ \/ num_rows d = 0 ->
  (strs = true -> k = KObj) -> Forall (fun v => kind_of v = k) vs ->
  (mp h (r_maps (d_raw d)) !! (k, c) = None \/
   exists s, mp h (r_maps (d_raw d)) !! (k, c) = Some s /\ s_len s = 0) ->
  match overwrite k strs d c vs h with
  | Ok (d', h') => num_rows d <= length vs /\ wf h' d' /\ inds d' = inds d /\ d_viewed d' = d_viewed d /\
      (NoDup (inds d) -> abs h' d' = (if strs then t_mark {[c]} else id)
         (t_with_cols (abs h d) (<[(k, c) := take (num_rows d) vs]> (t_cols (abs h d))))) /\
      (t_cols (abs h d) <> ∅ -> stable h h') /\
      (r_sharedMaps (d_raw d) = true -> strs = false \/ r_strs (d_raw d) = None -> preserved h h')
  | Panic => length vs < num_rows d
  end.
Proof.
  intros W Hne Hk Hv Hno. unfold overwrite.
  rewrite (bind_eq _ _ h (mp h (r_maps (d_raw d))) h) by done.
  rewrite decide_True; [|destruct Hno as [-> | (s & -> & ?)]; done].
  destruct (overwrite_alloc h d k strs c W Hne Hk) as (r1 & h1 & E1 & W1 & A1 & S1 & X1).
  destruct (overwrite_alloc_fresh h d k strs c r1 h1 W Hk E1) as (s & Hs & Hf & Ho).
  rewrite (bind_eq _ _ _ _ _ E1).
  rewrite (bind_eq _ _ h1 (mp h1 (r_maps r1)) h1) by done. rewrite Hs. simpl.
  destruct W1 as [n1 W1]. pose proof (write_column_spec h1 (set_raw d r1) n1 k c s vs W1 Hs Hv) as Hw.
  pose proof (written_column h1 (set_raw d r1) n1 k c s vs) as Hcol.
  change (inds (set_raw d r1)) with (inds d) in *. change (num_rows (set_raw d r1)) with (num_rows d) in *.
  destruct (write_loop s (inds d) vs h1) as [[[] h']|] eqn:Ew.
  2:{ unfold bind. by rewrite Ew. }
  rewrite (bind_eq _ _ _ _ _ Ew). simpl.
  destruct Hw as (H1 & H2 & H3 & H4).
  split; [done|]. split; [exists n1; by eapply wrt_wfn|]. split; [done|]. split; [done|].
  assert (Hyoung : forall a, a.1 < length (h_arr h) -> cell_val h' a = cell_val h1 a).
  { intros a Ha. apply H3. intros j Hj. unfold cell_of in Hj. simpl in Hj. rewrite Hs in Hj. simpl in Hj.
    destruct (inds (set_raw d r1) !! j); [|done]. injection Hj as <-. simpl in Ha. lia. }
  split.
  { intros Hnd. specialize (Hcol h' W1 Hs Hv Hnd eq_refl).
    assert (Hsh : same_shape (abs h1 (set_raw d r1)) (abs h' (set_raw d r1))) by (by apply wrt_shape).
    apply table_ext.
    - intros k' col. destruct (decide (k' = (k, c))) as [->|Hne'].
      + destruct strs; simpl; rewrite lookup_insert; intros [= <-]; simpl;
          (split; [rewrite take_length; lia|by apply Forall_take]).
      + pose proof (abs_ok _ _ W k' col) as Hok. intros Hc.
        destruct strs; simpl in Hc |- *; rewrite lookup_insert_ne in Hc by done; by apply Hok.
    - apply abs_ok. exists n1. by eapply wrt_wfn.
    - etrans; [|exact Hsh]. rewrite A1, t_alloc_one. unfold same_shape, t_mark, t_with_cols, id.
      destruct strs; simpl; (split; [done|]; split; [|done]); by rewrite !dom_insert_L.
    - intros k' j. destruct (decide (k' = (k, c))) as [->|Hne'].
      + unfold t_cell. rewrite Hcol. destruct strs; simpl; by rewrite lookup_insert.
      + transitivity (t_cell (abs h1 (set_raw d r1)) k' j).
        * rewrite !t_cell_abs by (exists n1; (done || by eapply wrt_wfn)).
          rewrite (wrt_cell_of _ _ _ _ _ H2). destruct (cell_of h1 (set_raw d r1) k' j) as [a|] eqn:Ea; [|done].
          simpl. apply Hyoung. unfold cell_of in Ea. simpl in Ea. rewrite Ho in Ea by done.
          assert (Ea' : cell_of h d k' j = Some a) by exact Ea.
          by apply (cell_of_valid h d k' j a W).
        * rewrite A1, t_alloc_one. unfold t_cell.
          destruct strs; simpl; by rewrite !lookup_insert_ne by done. }
  split.
  { intros Hc. etrans; [by apply S1|by apply wrt_stable]. }
  intros Hsm Hstr. specialize (X1 Hsm Hstr). intros d2 W2.
  pose proof (ext_wf _ _ _ X1 W2) as W2'. split; [by eapply wrt_wf|].
  rewrite <- (ext_abs _ _ d2 X1 W2). apply wrt_abs; [done|done|].
  intros k' j a Ha. apply Hyoung. rewrite (cell_of_ext _ _ _ _ _ X1 W2) in Ha.
  by apply (cell_of_valid h d2 k' j a W2).
Qed.
End frame.
