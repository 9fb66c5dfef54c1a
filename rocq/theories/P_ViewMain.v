(** The statements of Prop_View.v, proved. *)
From Coq Require Import Reals.
From Flocq Require Raux.
From Verif Require P_Float.
From Verif Require Export P_Asort P_Check P_View3.
Open Scope nat_scope.

Lemma C01_index_view_selects_main : forall (rt : GoRT) (h : heap) (d : dframe) (l : list Z),
  wf h d ->
  match index_view d l h with
  | Ok (v, h') =>
      Forall (fun i => (0 <= i < Z.of_nat (num_rows d))%Z) l /\
      abs h' v = t_select (Z.to_nat <$> l) (abs h d) /\
      wf h' v /\ preserved h h' /\ h_arr h' = h_arr h
  | Panic => Exists (fun i => (i < 0 \/ Z.of_nat (num_rows d) <= i)%Z) l
  end.
Proof.
  intros rt h d l W. pose proof (index_view_spec h d l W) as H.
  destruct (index_view d l h) as [[v h']|]; [|done].
  destruct H as (? & ? & ? & ? & ? & _). eauto 12 using ext_preserved.
Qed.

Lemma C01_rows_main : forall (ix : list nat) (t : table) (k : key) (j i : nat),
  t_ok t -> Forall (fun i => i < t_rows t) ix -> ix !! j = Some i ->
  t_rows (t_select ix t) = length ix /\ t_row (t_select ix t) j = t_row t i.
Proof.
  intros ix t k j i Hok Hix Hj. split; [done|]. apply map_eq. intros kk.
  unfold t_row, t_select. simpl. rewrite !lookup_omap, lookup_fmap.
  destruct (t_cols t !! kk) as [c|] eqn:E; [|done]. simpl.
  destruct (Hok _ _ E) as [Hl _]. rewrite pick_lookup; [|by rewrite Hl]. by rewrite Hj.
Qed.

Lemma C02_slice_view_rows_main : forall (rt : GoRT) (h : heap) (d : dframe) (from to : Z),
  wf h d ->
  let n := Z.of_nat (num_rows d) in
  let from' := if decide (from < 0)%Z then (from + (n + 1))%Z else from in
  let to' := if decide (to < 0)%Z then (to + (n + 1))%Z else to in
  (0 <= from' <= to')%Z -> (to' <= n)%Z ->
  exists v h', slice_view d from to h = Ok (v, h') /\
    abs h' v = t_slice (Z.to_nat from') (Z.to_nat to') (abs h d) /\
    wf h' v /\ preserved h h' /\ h_arr h' = h_arr h.
Proof.
  intros rt h d from to W n from' to' H1 H2.
  destruct (slice_view_fwd h d from to W H1 H2) as (v & h' & ? & ? & ? & ? & ?).
  eauto 8 using ext_preserved.
Qed.

Lemma C02_representation_irrelevant_main : forall (rt : GoRT) (h : heap) (d : dframe) (from to : Z),
  wf h d -> (0 <= from <= to)%Z -> (to <= Z.of_nat (num_rows d))%Z ->
  exists v1 h1 v2 h2,
    slice_view d from to h = Ok (v1, h1) /\
    slice_view (set_viewed d true) from to h = Ok (v2, h2) /\
    abs h1 v1 = abs h2 v2 /\ d_viewed v2 = true.
Proof.
  intros rt h d from to W H1 H2.
  assert (W' : wf h (set_viewed d true)).
  { destruct W as [n W]. exists n. destruct W. by split. }
  destruct (slice_view_fwd h d from to W) as (v & h' & ? & E1 & ?);
    [unfold bound; rewrite !decide_False by lia; lia..|].
  destruct (slice_view_fwd h (set_viewed d true) from to W') as (v2 & h2 & E & E2 & ?);
    [unfold bound; rewrite !decide_False by lia; change (num_rows (set_viewed d true)) with (num_rows d); lia..|].
  exists v, h', v2, h2. split; [done|]. split; [done|]. split.
  { rewrite E1, E2. done. }
  unfold slice_view in E. cbv zeta in E.
  rewrite !(decide_False (P := (_ < 0)%Z)) in E by lia.
  destruct (decide (from > to)%Z); [lia|].
  unfold cut in E. apply bind_ok in E as (m & hh & [= <- <-] & E).
  cbn [d_viewed view set_raw set_viewed orb] in E.
  apply bind_ok in E as (x & hh & _ & E). by apply ret_ok in E as [<- _].
Qed.

Lemma C03_slice_view_reversed_partial_main : forall (rt : GoRT) (h : heap) (d : dframe) (from to : Z),
  wf h d ->
  let n := Z.of_nat (num_rows d) in
  let from' := if decide (from < 0)%Z then (from + (n + 1))%Z else from in
  let to' := if decide (to < 0)%Z then (to + (n + 1))%Z else to in
  (0 <= to' < from')%Z -> (from' <= n)%Z ->
  exists v h', slice_view d from to h = Ok (v, h') /\
    abs h' v = t_slice (Z.to_nat to') (Z.to_nat from') (t_reverse (abs h d)) /\
    wf h' v /\ preserved h h' /\ h_arr h' = h_arr h.
Proof.
  intros rt h d from to W n from' to' H1 H2.
  destruct (slice_view_rev h d from to W H1 H2) as (v & h' & ? & ? & ? & ? & ?).
  eauto 8 using ext_preserved.
Qed.

Lemma t_slice_reverse_sym a b t : t_ok t -> a + b = t_rows t -> a <= b ->
  t_slice a b (t_reverse t) = t_reverse (t_slice a b t).
Proof.
  intros Hok Hs Hab. unfold t_slice, t_reverse. simpl. f_equal.
  rewrite <- !map_fmap_compose. apply map_fmap_ext. intros k c Hc. simpl.
  destruct (Hok _ _ Hc) as [Hl _].
  apply list_eq. intros i. destruct (decide (i < b - a)) as [Hi|Hi].
  - rewrite lookup_take by done. rewrite lookup_drop.
    rewrite reverse_lookup by lia.
    rewrite reverse_lookup by (rewrite take_length, drop_length; lia).
    rewrite take_length, drop_length, lookup_take by lia. rewrite lookup_drop. f_equal. lia.
  - rewrite lookup_take_ge by lia. symmetry. apply lookup_ge_None.
    rewrite reverse_length, take_length, drop_length. lia.
Qed.

Lemma C03_symmetric_bounds_main : forall (rt : GoRT) (h : heap) (d : dframe) (from to : Z),
  wf h d -> (0 <= to < from)%Z -> (from + to = Z.of_nat (num_rows d))%Z ->
  exists v h', slice_view d from to h = Ok (v, h') /\
    abs h' v = t_reverse (t_slice (Z.to_nat to) (Z.to_nat from) (abs h d)).
Proof.
  intros rt h d from to W H1 H2.
  destruct (slice_view_rev h d from to W) as (v & h' & E & Ha & _);
    [unfold bound; rewrite !decide_False by lia; lia..|].
  exists v, h'. split; [done|]. rewrite Ha. unfold bound. rewrite !decide_False by lia.
  apply t_slice_reverse_sym; [by apply abs_ok| |lia].
  change (t_rows (abs h d)) with (num_rows d). lia.
Qed.

Lemma C03_slice_view_reversed_refuted_main : exists (h : heap) (d : dframe) (v w : dframe) (h1 h2 : heap),
  wf h d /\ num_rows d = 4 /\
  slice_view (rt := ex_rt) d 2 0 h = Ok (v, h1) /\
  slice_view (rt := ex_rt) d 0 2 h = Ok (w, h2) /\
  show KInt "a" h d = Some [VInt 5; VInt 3; VInt 9; VInt 1] /\
  show KInt "a" h2 w = Some [VInt 5; VInt 3] /\
  show KInt "a" h1 v = Some [VInt 1; VInt 9] /\
  abs h1 v <> t_reverse (abs h2 w).
Proof.
  exists ex_h, ex_d.
  exists (run_df (slice_view (rt := ex_rt) ex_d 2 0) ex_h).1, (run_df (slice_view (rt := ex_rt) ex_d 0 2) ex_h).1,
    (run_df (slice_view (rt := ex_rt) ex_d 2 0) ex_h).2, (run_df (slice_view (rt := ex_rt) ex_d 0 2) ex_h).2.
  split; [exact ex_wf|]. repeat (split; [by vm_compute|]).
  intros E. apply (f_equal (fun t => t_cols t !! (KInt, "a"))) in E. by vm_compute in E.
Qed.

Lemma C04_mask_view_rows_main : forall (rt : GoRT) (h : heap) (d : dframe) (mask : list bool),
  wf h d ->
  match mask_view d mask h with
  | Ok (v, h') =>
      Forall (fun i => i < num_rows d) (true_positions mask) /\
      abs h' v = t_select (true_positions mask) (abs h d) /\ wf h' v /\ h' = h
  | Panic => Exists (fun i => num_rows d <= i) (true_positions mask)
  end.
Proof. intros rt h d mask W. by apply mask_view_spec. Qed.
Lemma C04_mask_view_is_index_view_main : forall (rt : GoRT) (h : heap) (d : dframe) (mask : list bool),
  wf h d ->
  match mask_view d mask h, index_view d (Z.of_nat <$> true_positions mask) h with
  | Ok (v, h1), Ok (w, h2) => abs h1 v = abs h2 w
  | Panic, Panic => True
  | _, _ => False
  end.
Proof. intros rt h d mask W. by apply mask_view_index_view. Qed.
Lemma C04_true_positions_main : forall (mask : list bool) (i : nat),
  StronglySorted lt (true_positions mask) /\
  (i ∈ true_positions mask <-> mask !! i = Some true).
Proof.
  intros mask i. split.
  - rewrite true_positions_eq. apply true_from_sorted.
  - unfold true_positions. rewrite elem_of_list_fmap. split.
    + intros ([j b] & -> & H). apply elem_of_list_filter in H as [Hb H]. simpl in *. subst b.
      apply elem_of_lookup_zip_with_1 in H as (q & x & y & E & Hx & Hy).
      injection E as -> ->. apply lookup_seq in Hx as [-> _]. done.
    + intros H. exists (i, true). split; [done|]. apply elem_of_list_filter. split; [done|].
      apply elem_of_list_lookup. exists i. apply lookup_zip_with_Some. exists i, true.
      split; [done|]. split; [|done]. apply lookup_seq. split; [done|].
      by apply lookup_lt_Some in H.
Qed.

Lemma C05_column_view_projects_main : forall (rt : GoRT) (h : heap) (d : dframe) (cols : list string),
  wf h d ->
  exists v h', column_view d cols h = Ok (v, h') /\
    abs h' v = (if decide (cols = []) then abs h d else t_project cols (abs h d)) /\
    wf h' v /\ preserved h h' /\ h_arr h' = h_arr h.
Proof.
  intros rt h d cols W. destruct (decide (cols = [])) as [->|Hc].
  - exists (view d), h. rewrite column_view_nil, abs_view. eauto 8 using wf_view, preserved_refl.
  - destruct (column_view_spec h d cols W Hc) as (v & h' & ? & ? & ? & ? & ? & _).
    eauto 8 using ext_preserved.
Qed.

Lemma C06_reverse_view_flips_main : forall (h : heap) (d : dframe),
  wf h d ->
  abs h (reverse_view d) = t_reverse (abs h d) /\ wf h (reverse_view d) /\
  abs h (reverse_view (reverse_view d)) = abs h d.
Proof.
  intros h d W. split; [by apply abs_reverse|]. split; [by apply wf_reverse|].
  rewrite abs_reverse, abs_reverse by auto using wf_reverse.
  unfold t_reverse. simpl. change (abs h d) with
    (Table (t_rows (abs h d)) (t_cols (abs h d)) (t_strs (abs h d)) (t_enc (abs h d)) (t_cpu (abs h d))).
  f_equal. rewrite <- map_fmap_compose. etrans; [|apply map_fmap_id].
  apply map_fmap_ext. intros k c _. simpl. apply reverse_involutive.
Qed.

Lemma C07_shuffle_view_permutes_main : forall (rt : GoRT) (rnd : nat -> nat) (h : heap) (d : dframe),
  wf h d ->
  exists p v h', p ≡ₚ seq 0 (num_rows d) /\ shuffle_view rnd d h = Ok (v, h') /\
    abs h' v = t_select p (abs h d) /\ wf h' v /\ preserved h h' /\ h_arr h' = h_arr h.
Proof.
  intros rt rnd h d W.
  destruct (shuffle_view_spec rnd h d W) as (p & v & h' & ? & _ & ? & ? & ? & ? & ? & _).
  eauto 10 using ext_preserved.
Qed.
Lemma C07_every_permutation_main : forall (rt : GoRT) (h : heap) (d : dframe) (p : list nat),
  wf h d -> p ≡ₚ seq 0 (num_rows d) ->
  exists rnd v h', shuffle_view rnd d h = Ok (v, h') /\ abs h' v = t_select p (abs h d).
Proof.
  intros rt h d p W Hp. destruct (shuffle_complete (seq 0 (num_rows d)) p) as [rnd Hr]; [done|].
  destruct (shuffle_view_spec rnd h d W) as (q & v & h' & _ & -> & ? & ? & _).
  exists rnd, v, h'. split; [done|]. by rewrite <- Hr.
Qed.

Lemma C08_sample_view_distinct_main : forall (rt : GoRT) (rnd : nat -> nat) (h : heap) (d : dframe) (n : Z)
    (replacement : bool),
  wf h d ->
  match sample_view rnd d n replacement h with
  | Ok (v, h') => replacement = false /\ (0 <= n <= Z.of_nat (num_rows d))%Z /\
      exists p, NoDup p /\ Forall (fun i => i < num_rows d) p /\ length p = Z.to_nat n /\
        abs h' v = t_select p (abs h d) /\
        wf h' v /\ preserved h h' /\ h_arr h' = h_arr h
  | Panic => replacement = true \/ (n < 0 \/ Z.of_nat (num_rows d) < n)%Z
  end.
Proof.
  intros rt rnd h d n repl W. pose proof (sample_view_spec rnd h d n repl W) as H.
  destruct (sample_view rnd d n repl h) as [[v h']|]; [|done].
  destruct H as (? & Hn & Ha & ? & ? & ?). split; [done|]. split; [done|].
  pose proof (shuffle_perm rnd (seq 0 (num_rows d))) as Hp.
  exists (take (Z.to_nat n) (shuffle rnd (seq 0 (num_rows d)))).
  split; [|split; [|split]].
  - assert (Hnd : NoDup (shuffle rnd (seq 0 (num_rows d)))) by (rewrite Hp; apply NoDup_seq).
    rewrite <- (take_drop (Z.to_nat n)) in Hnd. by apply NoDup_app in Hnd as [? _].
  - apply Forall_take. rewrite Hp. apply Forall_forall. intros i Hi%elem_of_seq. lia.
  - rewrite take_length, Hp, seq_length. lia.
  - eauto 12 using ext_preserved.
Qed.

Lemma C09_split_view_batches_main : forall (rt : GoRT) (h : heap) (d : dframe) (b : Z),
  wf h d ->
  match split_view d b h with
  | Ok (vs, h') => (0 < b)%Z /\ t_concat (abs h' <$> vs) (abs h d) /\ vs <> [] /\
      (forall i v, vs !! i = Some v -> S i < length vs -> Z.of_nat (num_rows v) = b) /\
      (forall v, last vs = Some v -> (Z.of_nat (num_rows v) <= b)%Z /\
                                    (0 < num_rows d -> 0 < num_rows v)) /\
      Forall (wf h') vs /\ preserved h h' /\ h_arr h' = h_arr h
  | Panic => (b <= 0)%Z
  end.
Proof.
  intros rt h d b W. pose proof (split_view_spec h d b W) as H.
  destruct (split_view d b h) as [[vs h']|]; [|done].
  destruct H as (? & ? & ? & ? & ? & ? & ? & ?). eauto 12 using ext_preserved.
Qed.

Lemma C10_split_n_view_parts_partial_main : forall (rt : GoRT) (h : heap) (d : dframe) (n : Z),
  wf h d -> 0 < num_rows d \/ (n <= 1)%Z ->
  match split_n_view d n h with
  | Ok (vs, h') => (0 <= n)%Z /\ length vs = Z.to_nat n /\
      ((0 < n)%Z -> exists parts pad, vs = parts ++ pad /\ t_concat (abs h' <$> parts) (abs h d) /\
                  Forall (fun v => num_rows v = 0 /\ t_cols (abs h' v) = ∅ /\ t_strs (abs h' v) = ∅) pad) /\
      Forall (wf h') vs /\ preserved h h' /\ h_arr h' = h_arr h
  | Panic => (n < 0)%Z
  end.
Proof.
  intros rt h d n W Hn. pose proof (split_n_view_spec h d n W Hn) as H.
  destruct (split_n_view d n h) as [[vs h']|]; [|done].
  destruct H as (? & ? & ? & ? & ? & ?). eauto 12 using ext_preserved.
Qed.
Lemma C10_split_n_view_empty_refuted_main : exists (h : heap) (d v : dframe) (h' : heap),
  wf h d /\ num_rows d = 0 /\ split_n_view (rt := ex_rt) d 3 h = Ok ([v], h').
Proof.
  exists ex_h, (run_df (index_view (rt := ex_rt) ex_d []) ex_h).1.
  eexists _, _. split; [apply (wf_check_sound _ _ 4); by vm_compute|].
  split; [by vm_compute|]. vm_compute. reflexivity.
Qed.
Definition pad_vs : list dframe * heap :=
  match split_n_view (rt := ex_rt) ex_d 5 ex_h with Ok p => p | Panic => ([], heap0) end.
Lemma C10_padding_has_no_columns_refuted_main : exists (h : heap) (d : dframe) (vs : list dframe) (h' : heap) (v : dframe),
  wf h d /\ num_rows d = 4 /\ split_n_view (rt := ex_rt) d 5 h = Ok (vs, h') /\
  vs !! 4 = Some v /\ wf h' v /\ t_cols (abs h' v) = ∅ /\ t_cols (abs h d) <> ∅.
Proof.
  exists ex_h, ex_d, pad_vs.1, pad_vs.2, (default dummy (pad_vs.1 !! 4)).
  split; [exact ex_wf|]. split; [by vm_compute|]. split; [by vm_compute|].
  split; [by vm_compute|]. split; [apply (wf_check_sound _ _ 0); by vm_compute|].
  split; [apply (bool_decide_unpack _); by vm_compute|].
  intros H. apply (f_equal (fun t => t !! (KInt, "a"))) in H. by vm_compute in H.
Qed.

Lemma C11_train_test_partition_main : forall (rt : GoRT) (h : heap) (d : dframe) (r : f64),
  wf h d -> (Z.of_nat (num_rows d) <= 2 ^ 53)%Z ->
  valid_binary 53 1024 r = true -> f64_isnan r = false ->
  match split_train_test d r h with
  | Ok ((train, test), h') =>
      f64_lt r f64_zero = false /\ f64_lt f64_one r = false /\
      t_concat [abs h' train; abs h' test] (abs h d) /\
      Z.of_nat (num_rows test) =
        Raux.Zfloor (P_Float.rnd64 (IZR (Z.of_nat (num_rows d)) * P_Float.f64_R r)) /\
      wf h' train /\ wf h' test /\ preserved h h' /\ h_arr h' = h_arr h
  | Panic => f64_lt r f64_zero = true \/ f64_lt f64_one r = true
  end.
Proof.
  intros rt h d r W Hn Hv Hr. pose proof (split_train_test_spec h d r W Hn Hv Hr) as H.
  destruct (split_train_test d r h) as [[[train test] h']|]; [|done].
  destruct H as (H0 & H1 & ? & ? & ? & ? & ? & E).
  destruct (P_Float.ratio_trunc (Z.of_nat (num_rows d)) r) as (Ht & _); [lia|done..|].
  rewrite Ht in E. eauto 12 using ext_preserved.
Qed.

Lemma C12_sorted_view_sorts_main : forall (rt : GoRT) (asort : list f64 -> list nat) (h : heap) (d : dframe) (c : string),
  wf h d -> asort_ok asort ->
  match sorted_view asort d c h with
  | Ok (v, h') => exists col p, sort_col (abs h d) c = Some col /\
      p ≡ₚ seq 0 (num_rows d) /\ abs h' v = t_select p (abs h d) /\
      (Forall sortable col -> StronglySorted val_le (pick p col)) /\
      (is_Some (t_cols (abs h d) !! (KBool, c)) ->
         p = filter (fun i => col !! i = Some (VBool false)) (seq 0 (num_rows d)) ++
             filter (fun i => col !! i = Some (VBool true)) (seq 0 (num_rows d))) /\
      wf h' v /\ preserved h h' /\ h_arr h' = h_arr h
  | Panic => sort_col (abs h d) c = None
  end.
Proof.
  intros rt asort h d c W Ha. pose proof (sorted_view_spec asort h d c W Ha) as H.
  destruct (sorted_view asort d c h) as [[v h']|]; [|done].
  destruct H as (col & p & ? & ? & ? & ? & ? & ? & ? & ? & _).
  exists col, p. eauto 12 using ext_preserved.
Qed.

(** Beyond 2^53 the conversion to float64 makes distinct integers equal. *)
Section big.
Existing Instance ex_rt.
Definition big_build : M dframe :=
  let* r := new_raw in
  let* r := b_add KInt r "a" [VInt (2 ^ 53 + 1); VInt (2 ^ 53)] in
  to_dataframe r.
Definition big_d : dframe := (run_df big_build heap0).1.
Definition big_h : heap := (run_df big_build heap0).2.
End big.
Lemma C12_sorted_view_big_ints_refuted_main : exists (asort : list f64 -> list nat) (h : heap) (d v : dframe) (h' : heap),
  asort_ok asort /\ wf h d /\ sorted_view (rt := ex_rt) asort d "a" h = Ok (v, h') /\
  show KInt "a" h d = Some [VInt 9007199254740993; VInt 9007199254740992] /\
  show KInt "a" h' v = Some [VInt 9007199254740993; VInt 9007199254740992].
Proof.
  exists merge_asort, big_h, big_d, (run_df (sorted_view (rt := ex_rt) merge_asort big_d "a") big_h).1,
    (run_df (sorted_view (rt := ex_rt) merge_asort big_d "a") big_h).2.
  split; [exact merge_asort_ok|]. split; [apply (wf_check_sound _ _ 2); by vm_compute|].
  repeat (split; [by vm_compute|]); by vm_compute.
Qed.

Lemma C13_top_view_extremes_main : forall (rt : GoRT) (asort : list f64 -> list nat) (h : heap) (d : dframe)
    (c : string) (n : Z) (asc sorted : bool),
  wf h d -> asort_ok asort ->
  match top_view asort d c n asc sorted h with
  | Ok (v, h') => (0 <= n)%Z /\ exists q rest, q ++ rest ≡ₚ seq 0 (num_rows d) /\
      length q = Z.to_nat n `min` num_rows d /\ abs h' v = t_select q (abs h d) /\
      (forall col, sort_col (abs h d) c = Some col -> Forall sortable col ->
         (forall i j x y, i ∈ q -> j ∈ rest -> col !! i = Some x -> col !! j = Some y ->
            if asc then val_le x y else val_le y x) /\
         (sorted = true -> StronglySorted (if asc then val_le else flip val_le) (pick q col))) /\
      wf h' v /\ preserved h h' /\ h_arr h' = h_arr h
  | Panic => (sorted = true \/ n < Z.of_nat (num_rows d))%Z /\
             ((n < 0)%Z \/ sort_col (abs h d) c = None)
  end.
Proof.
  intros rt asort h d c n asc sorted W Ha.
  pose proof (top_view_spec asort h d c n asc sorted W Ha) as H.
  destruct (top_view asort d c n asc sorted h) as [[v h']|]; [|done].
  destruct H as (? & q & rest & ? & ? & ? & ? & ? & ? & ?). split; [done|].
  exists q, rest. eauto 12 using ext_preserved.
Qed.

Lemma C14_reset_index_view_main : forall (h : heap) (d : dframe),
  wf h d ->
  exists p, p ≡ₚ seq 0 (num_rows d) /\ abs h (reset_index_view d) = t_select p (abs h d) /\
    inds (reset_index_view d) = pick p (inds d) /\ Sorted le (inds (reset_index_view d)) /\
    wf h (reset_index_view d).
Proof.
  intros h d W. destruct (reset_index_view_spec h d W) as (p & ? & ? & Hs & E & ?).
  exists p. rewrite E. auto.
Qed.

(** Reading a cell through the public access functions is reading the table. *)
Lemma C15_get_reads_the_table_main : forall (h : heap) (d : dframe) (k : kind) (c : string) (row : Z) (v : val),
  wf h d ->
  (exists h', get_cell k d c row h = Ok (v, h')) <->
  (0 <= row)%Z /\ exists col, t_cols (abs h d) !! (k, c) = Some col /\
                           col !! Z.to_nat row = Some v.
Proof. exact get_cell_abs. Qed.

(** Bounds beyond NumRows are accepted as long as they are within the capacity
    of the slices behind the dataframe. *)
Section oob.
Existing Instance ex_rt.
Definition long_build : M dframe :=
  let* r := new_raw in
  let* r := b_add KInt r "a" ((fun i => VInt (Z.of_nat i)) <$> seq 0 15) in
  to_dataframe r.
Definition long_d : dframe := (run_df long_build heap0).1.
Definition long_h : heap := (run_df long_build heap0).2.
(** The first of the batches of 11 rows, and its rows 8..11. *)
Definition batch_d : dframe := (run_df (slice_view long_d 0 11) long_h).1.
Definition batch_h : heap := (run_df (slice_view long_d 0 11) long_h).2.
Definition oob_d : dframe := (run_df (slice_view batch_d 8 12) batch_h).1.
Definition oob_h : heap := (run_df (slice_view batch_d 8 12) batch_h).2.
End oob.
Lemma C66_slice_view_out_of_range_refuted_main : exists (h : heap) (d v : dframe) (h' : heap),
  wf h d /\ num_rows d = 11 /\ slice_view (rt := ex_rt) d 8 12 h = Ok (v, h') /\
  num_rows v = 4 /\ get_cell KInt v "a" 2 h' = Ok (VInt 10, h') /\ get_cell KInt v "a" 3 h' = Panic.
Proof.
  exists batch_h, batch_d, oob_d, oob_h. split; [apply (wf_check_sound _ _ 11); by vm_compute|].
  repeat (split; [by vm_compute|]); by vm_compute.
Qed.
Lemma C66_slice_view_resurrects_rows_refuted_main : exists (h : heap) (d v : dframe) (h' : heap),
  wf h d /\ show KInt "a" h d = Some [VInt 5; VInt 3] /\
  slice_view (rt := ex_rt) d 1 4 h = Ok (v, h') /\
  show KInt "a" h' v = Some [VInt 3; VInt 9; VInt 1].
Proof.
  exists (run_df (slice_view (rt := ex_rt) ex_d 0 2) ex_h).2, (run_df (slice_view (rt := ex_rt) ex_d 0 2) ex_h).1.
  eexists _, _. split; [apply (wf_check_sound _ _ 4); by vm_compute|].
  split; [by vm_compute|]. split; [vm_compute; reflexivity|]. by vm_compute.
Qed.
