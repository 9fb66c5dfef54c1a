(** Views (view.go): the property theorems C01-C14 and C66. *)
From Coq Require Import Reals.
From Flocq Require Raux.
From Verif Require P_Float.
From Verif Require Import P_ViewMain.
Open Scope nat_scope.

(** C01 IndexView selects rows exactly. [t_select] is in Spec.v; the second
    theorem spells out what it means row by row. *)
Theorem C01_index_view_selects : forall (rt : GoRT) (h : heap) (d : dframe) (l : list Z),
  wf h d ->
  match index_view d l h with
  | Ok (v, h') =>
      Forall (fun i => (0 <= i < Z.of_nat (num_rows d))%Z) l /\
      abs h' v = t_select (Z.to_nat <$> l) (abs h d) /\
      wf h' v /\ preserved h h' /\ h_arr h' = h_arr h
  | Panic => Exists (fun i => (i < 0 \/ Z.of_nat (num_rows d) <= i)%Z) l
  end.
Proof. exact C01_index_view_selects_main. Qed.
Print Assumptions C01_index_view_selects.
Theorem C01_rows : forall (ix : list nat) (t : table) (k : key) (j i : nat),
  t_ok t -> Forall (fun i => i < t_rows t) ix -> ix !! j = Some i ->
  t_rows (t_select ix t) = length ix /\ t_row (t_select ix t) j = t_row t i.
Proof. exact C01_rows_main. Qed.
Print Assumptions C01_rows.
Example C01_case : wf ex_h ex_d /\
  show KInt "a" ex_vh ex_v = Some [VInt 9; VInt 5; VInt 9] /\
  show KObj "s" ex_vh ex_v = Some [VObj (OStr "yy"); VObj (OStr "x"); VObj (OStr "yy")] /\
  index_view (rt := ex_rt) ex_d [0; 4]%Z ex_h = Panic.
Proof. split; [exact ex_wf|]. by vm_compute. Qed.

(** C02 SliceView takes the contiguous rows [from,to), whichever internal
    representation is chosen. *)
Theorem C02_slice_view_rows : forall (rt : GoRT) (h : heap) (d : dframe) (from to : Z),
  wf h d ->
  let n := Z.of_nat (num_rows d) in
  let from' := if decide (from < 0)%Z then (from + (n + 1))%Z else from in
  let to' := if decide (to < 0)%Z then (to + (n + 1))%Z else to in
  (0 <= from' <= to')%Z -> (to' <= n)%Z ->
  exists v h', slice_view d from to h = Ok (v, h') /\
    abs h' v = t_slice (Z.to_nat from') (Z.to_nat to') (abs h d) /\
    wf h' v /\ preserved h h' /\ h_arr h' = h_arr h.
Proof. exact C02_slice_view_rows_main. Qed.
Print Assumptions C02_slice_view_rows.
Theorem C02_representation_irrelevant : forall (rt : GoRT) (h : heap) (d : dframe) (from to : Z),
  wf h d -> (0 <= from <= to)%Z -> (to <= Z.of_nat (num_rows d))%Z ->
  exists v1 h1 v2 h2,
    slice_view d from to h = Ok (v1, h1) /\
    slice_view (set_viewed d true) from to h = Ok (v2, h2) /\
    abs h1 v1 = abs h2 v2 /\ d_viewed v2 = true.
Proof. exact C02_representation_irrelevant_main. Qed.
Print Assumptions C02_representation_irrelevant.
Example C02_case : wf ex_vh ex_v /\
  (let '(v, h) := run_df (slice_view (rt := ex_rt) ex_v (-2) (-1)) ex_vh in
   show KInt "a" h v = Some [VInt 9]) /\
  d_viewed batch_d = false /\ num_rows batch_d = 11.
Proof. split; [exact ex_v_wf|]. by vm_compute. Qed.

(** C03 the documented statement (reversed slice = reverse of the slice) is
    refuted; what holds is that the bounds apply to the reversed dataframe, so
    the documented statement holds exactly for bounds symmetric about the
    middle. *)
Theorem C03_slice_view_reversed_partial : forall (rt : GoRT) (h : heap) (d : dframe) (from to : Z),
  wf h d ->
  let n := Z.of_nat (num_rows d) in
  let from' := if decide (from < 0)%Z then (from + (n + 1))%Z else from in
  let to' := if decide (to < 0)%Z then (to + (n + 1))%Z else to in
  (0 <= to' < from')%Z -> (from' <= n)%Z ->
  exists v h', slice_view d from to h = Ok (v, h') /\
    abs h' v = t_slice (Z.to_nat to') (Z.to_nat from') (t_reverse (abs h d)) /\
    wf h' v /\ preserved h h' /\ h_arr h' = h_arr h.
Proof. exact C03_slice_view_reversed_partial_main. Qed.
Print Assumptions C03_slice_view_reversed_partial.
Theorem C03_symmetric_bounds : forall (rt : GoRT) (h : heap) (d : dframe) (from to : Z),
  wf h d -> (0 <= to < from)%Z -> (from + to = Z.of_nat (num_rows d))%Z ->
  exists v h', slice_view d from to h = Ok (v, h') /\
    abs h' v = t_reverse (t_slice (Z.to_nat to) (Z.to_nat from) (abs h d)).
Proof. exact C03_symmetric_bounds_main. Qed.
Print Assumptions C03_symmetric_bounds.
Theorem C03_slice_view_reversed_refuted : exists (h : heap) (d : dframe) (v w : dframe) (h1 h2 : heap),
  wf h d /\ num_rows d = 4 /\
  slice_view (rt := ex_rt) d 2 0 h = Ok (v, h1) /\
  slice_view (rt := ex_rt) d 0 2 h = Ok (w, h2) /\
  show KInt "a" h d = Some [VInt 5; VInt 3; VInt 9; VInt 1] /\
  show KInt "a" h2 w = Some [VInt 5; VInt 3] /\
  show KInt "a" h1 v = Some [VInt 1; VInt 9] /\
  abs h1 v <> t_reverse (abs h2 w).
Proof. exact C03_slice_view_reversed_refuted_main. Qed.
Print Assumptions C03_slice_view_reversed_refuted.
Example C03_case : wf ex_h ex_d /\
  (let '(v, h) := run_df (slice_view (rt := ex_rt) ex_d 3 1) ex_h in
   show KInt "a" h v = Some [VInt 9; VInt 3]).
Proof. split; [exact ex_wf|]. by vm_compute. Qed.

(** C04 MaskView is IndexView of the true positions. *)
Theorem C04_mask_view_rows : forall (rt : GoRT) (h : heap) (d : dframe) (mask : list bool),
  wf h d ->
  match mask_view d mask h with
  | Ok (v, h') =>
      Forall (fun i => i < num_rows d) (true_positions mask) /\
      abs h' v = t_select (true_positions mask) (abs h d) /\ wf h' v /\ h' = h
  | Panic => Exists (fun i => num_rows d <= i) (true_positions mask)
  end.
Proof. exact C04_mask_view_rows_main. Qed.
Print Assumptions C04_mask_view_rows.
Theorem C04_mask_view_is_index_view : forall (rt : GoRT) (h : heap) (d : dframe) (mask : list bool),
  wf h d ->
  match mask_view d mask h, index_view d (Z.of_nat <$> true_positions mask) h with
  | Ok (v, h1), Ok (w, h2) => abs h1 v = abs h2 w
  | Panic, Panic => True
  | _, _ => False
  end.
Proof. exact C04_mask_view_is_index_view_main. Qed.
Print Assumptions C04_mask_view_is_index_view.
Theorem C04_true_positions : forall (mask : list bool) (i : nat),
  StronglySorted lt (true_positions mask) /\
  (i ∈ true_positions mask <-> mask !! i = Some true).
Proof. exact C04_true_positions_main. Qed.
Print Assumptions C04_true_positions.
Example C04_case : wf ex_vh ex_v /\
  (let '(v, h) := run_df (mask_view ex_v [false; true; true; false]) ex_vh in
   show KInt "a" h v = Some [VInt 5; VInt 9]) /\
  mask_view ex_v [false; true; true; true] ex_vh = Panic.
Proof. split; [exact ex_v_wf|]. by vm_compute. Qed.

(** C05 ColumnView keeps exactly the selected columns. *)
Theorem C05_column_view_projects : forall (rt : GoRT) (h : heap) (d : dframe) (cols : list string),
  wf h d ->
  exists v h', column_view d cols h = Ok (v, h') /\
    abs h' v = (if decide (cols = []) then abs h d else t_project cols (abs h d)) /\
    wf h' v /\ preserved h h' /\ h_arr h' = h_arr h.
Proof. exact C05_column_view_projects_main. Qed.
Print Assumptions C05_column_view_projects.
Example C05_case : wf ex_vh ex_v /\
  (let '(v, h) := run_df (column_view ex_v ["s"; "zz"; "b"]) ex_vh in
   elements (dom (t_cols (abs h v))) = [(KFloat, "b"); (KObj, "s")] /\
   elements (t_strs (abs h v)) = ["s"]).
Proof. split; [exact ex_v_wf|]. by vm_compute. Qed.

(** C06 ReverseView flips the rows and is an involution. *)
Theorem C06_reverse_view_flips : forall (h : heap) (d : dframe),
  wf h d ->
  abs h (reverse_view d) = t_reverse (abs h d) /\ wf h (reverse_view d) /\
  abs h (reverse_view (reverse_view d)) = abs h d.
Proof. exact C06_reverse_view_flips_main. Qed.
Print Assumptions C06_reverse_view_flips.
Example C06_case : wf ex_h ex_d /\
  show KInt "a" ex_h (reverse_view ex_d) = Some [VInt 1; VInt 9; VInt 3; VInt 5].
Proof. split; [exact ex_wf|]. by vm_compute. Qed.

(** C07 ShuffleView applies one permutation to all columns, and every
    permutation can occur. *)
Theorem C07_shuffle_view_permutes : forall (rt : GoRT) (rnd : nat -> nat) (h : heap) (d : dframe),
  wf h d ->
  exists p v h', p ≡ₚ seq 0 (num_rows d) /\ shuffle_view rnd d h = Ok (v, h') /\
    abs h' v = t_select p (abs h d) /\ wf h' v /\ preserved h h' /\ h_arr h' = h_arr h.
Proof. exact C07_shuffle_view_permutes_main. Qed.
Print Assumptions C07_shuffle_view_permutes.
Theorem C07_every_permutation : forall (rt : GoRT) (h : heap) (d : dframe) (p : list nat),
  wf h d -> p ≡ₚ seq 0 (num_rows d) ->
  exists rnd v h', shuffle_view rnd d h = Ok (v, h') /\ abs h' v = t_select p (abs h d).
Proof. exact C07_every_permutation_main. Qed.
Print Assumptions C07_every_permutation.
Example C07_case : wf ex_h ex_d /\ [3; 1; 0; 2] ≡ₚ seq 0 (num_rows ex_d) /\
  (let '(v, h) := run_df (shuffle_view (rt := ex_rt) (fun i => i / 2) ex_d) ex_h in
   show KInt "a" h v = Some [VInt 9; VInt 5; VInt 1; VInt 3]).
Proof. split; [exact ex_wf|]. split; [|by vm_compute]. apply (bool_decide_unpack _). by vm_compute. Qed.

(** C08 SampleView draws n distinct rows. *)
Theorem C08_sample_view_distinct : forall (rt : GoRT) (rnd : nat -> nat) (h : heap) (d : dframe) (n : Z)
    (replacement : bool),
  wf h d ->
  match sample_view rnd d n replacement h with
  | Ok (v, h') => replacement = false /\ (0 <= n <= Z.of_nat (num_rows d))%Z /\
      exists p, NoDup p /\ Forall (fun i => i < num_rows d) p /\ length p = Z.to_nat n /\
        abs h' v = t_select p (abs h d) /\
        wf h' v /\ preserved h h' /\ h_arr h' = h_arr h
  | Panic => replacement = true \/ (n < 0 \/ Z.of_nat (num_rows d) < n)%Z
  end.
Proof. exact C08_sample_view_distinct_main. Qed.
Print Assumptions C08_sample_view_distinct.
Example C08_case : wf ex_h ex_d /\
  (let '(v, h) := run_df (sample_view (rt := ex_rt) (fun i => i / 2) ex_d 2 false) ex_h in
   show KInt "a" h v = Some [VInt 9; VInt 5]).
Proof. split; [exact ex_wf|]. by vm_compute. Qed.

(** C09 SplitView partitions the rows into batches. *)
Theorem C09_split_view_batches : forall (rt : GoRT) (h : heap) (d : dframe) (b : Z),
  wf h d ->
  match split_view d b h with
  | Ok (vs, h') => (0 < b)%Z /\ t_concat (abs h' <$> vs) (abs h d) /\ vs <> [] /\
      (forall i v, vs !! i = Some v -> S i < length vs -> Z.of_nat (num_rows v) = b) /\
      (forall v, last vs = Some v -> (Z.of_nat (num_rows v) <= b)%Z /\
                                    (0 < num_rows d -> 0 < num_rows v)) /\
      Forall (wf h') vs /\ preserved h h' /\ h_arr h' = h_arr h
  | Panic => (b <= 0)%Z
  end.
Proof. exact C09_split_view_batches_main. Qed.
Print Assumptions C09_split_view_batches.
Example C09_case : wf ex_h ex_d /\
  match split_view (rt := ex_rt) ex_d 3 ex_h with
  | Ok (vs, h) => show KInt "a" h <$> vs = [Some [VInt 5; VInt 3; VInt 9]; Some [VInt 1]]
  | Panic => False
  end.
Proof. split; [exact ex_wf|]. by vm_compute. Qed.

(** C10 SplitNView returns exactly n parts covering the dataframe: holds unless
    the dataframe has no row and n > 1 (missing part, refuted); padding parts
    have no columns. *)
Theorem C10_split_n_view_parts_partial : forall (rt : GoRT) (h : heap) (d : dframe) (n : Z),
  wf h d -> 0 < num_rows d \/ (n <= 1)%Z ->
  match split_n_view d n h with
  | Ok (vs, h') => (0 <= n)%Z /\ length vs = Z.to_nat n /\
      ((0 < n)%Z -> exists parts pad, vs = parts ++ pad /\ t_concat (abs h' <$> parts) (abs h d) /\
                  Forall (fun v => num_rows v = 0 /\ t_cols (abs h' v) = ∅ /\ t_strs (abs h' v) = ∅) pad) /\
      Forall (wf h') vs /\ preserved h h' /\ h_arr h' = h_arr h
  | Panic => (n < 0)%Z
  end.
Proof. exact C10_split_n_view_parts_partial_main. Qed.
Print Assumptions C10_split_n_view_parts_partial.
Theorem C10_split_n_view_empty_refuted : exists (h : heap) (d v : dframe) (h' : heap),
  wf h d /\ num_rows d = 0 /\ split_n_view (rt := ex_rt) d 3 h = Ok ([v], h').
Proof. exact C10_split_n_view_empty_refuted_main. Qed.
Print Assumptions C10_split_n_view_empty_refuted.
Theorem C10_padding_has_no_columns_refuted : exists (h : heap) (d : dframe) (vs : list dframe) (h' : heap) (v : dframe),
  wf h d /\ num_rows d = 4 /\ split_n_view (rt := ex_rt) d 5 h = Ok (vs, h') /\
  vs !! 4 = Some v /\ wf h' v /\ t_cols (abs h' v) = ∅ /\ t_cols (abs h d) <> ∅.
Proof. exact C10_padding_has_no_columns_refuted_main. Qed.
Print Assumptions C10_padding_has_no_columns_refuted.
Example C10_case : wf ex_h ex_d /\
  match split_n_view (rt := ex_rt) ex_d 3 ex_h with
  | Ok (vs, h) => num_rows <$> vs = [2; 2; 0]
  | Panic => False
  end.
Proof. split; [exact ex_wf|]. by vm_compute. Qed.

(** C11 SplitTrainTestViews partitions the rows; the size of the test set is
    floor(fl(n*r)), the rounding being to nearest even in binary64. Excluded:
    NaN, more than 2^53 rows. *)
Theorem C11_train_test_partition : forall (rt : GoRT) (h : heap) (d : dframe) (r : f64),
  wf h d -> (Z.of_nat (num_rows d) <= 2 ^ 53)%Z ->
  valid_binary 53 1024 r = true -> f64_isnan r = false ->
  match split_train_test d r h with
  | Ok ((train, test), h') =>
      f64_lt r f64_zero = false /\ f64_lt f64_one r = false /\
      t_concat [abs h' train; abs h' test] (abs h d) /\
      Z.of_nat (num_rows test) =
        Raux.Zfloor (P_Float.rnd64 (IZR (Z.of_nat (num_rows d)) * P_Float.f64_R r)) /\
      wf h' train /\ wf h' test /\ preserved h h' /\ h_arr h' = h_arr h
  | Panic => f64_lt r f64_zero = true \/ f64_lt f64_one r = true
  end.
Proof. exact C11_train_test_partition_main. Qed.
Print Assumptions C11_train_test_partition.
Example C11_case : wf ex_h ex_d /\ valid_binary 53 1024 f_half = true /\
  match split_train_test (rt := ex_rt) ex_d f_half ex_h with
  | Ok ((train, test), h) => show KInt "a" h train = Some [VInt 5; VInt 3] /\
                             show KInt "a" h test = Some [VInt 9; VInt 1]
  | Panic => False
  end.
Proof. split; [exact ex_wf|]. by vm_compute. Qed.

(** C12 SortedView sorts, for every sorting function satisfying [asort_ok];
    integers beyond 2^53 are not sorted (refuted). *)
Theorem C12_sorted_view_sorts : forall (rt : GoRT) (asort : list f64 -> list nat) (h : heap) (d : dframe) (c : string),
  wf h d -> asort_ok asort ->
  match sorted_view asort d c h with
  | Ok (v, h') => exists col p, sort_col (abs h d) c = Some col /\
      p ≡ₚ seq 0 (num_rows d) /\ abs h' v = t_select p (abs h d) /\
      (Forall sortable col -> StronglySorted val_le (pick p col)) /\
      (is_Some (t_cols (abs h d) !! (KBool, c)) ->
         p = filter (fun i => col !! i = Some (VBool false)) (seq 0 (num_rows d)) ++
             filter (fun i => col !! i = Some (VBool true)) (seq 0 (num_rows d))) /\
      wf h' v /\ preserved h h' /\ h_arr h' = h_arr h
  | Panic => sort_col (abs h d) c = None
  end.
Proof. exact C12_sorted_view_sorts_main. Qed.
Print Assumptions C12_sorted_view_sorts.
Theorem C12_sorted_view_big_ints_refuted : exists (asort : list f64 -> list nat) (h : heap) (d v : dframe) (h' : heap),
  asort_ok asort /\ wf h d /\ sorted_view (rt := ex_rt) asort d "a" h = Ok (v, h') /\
  show KInt "a" h d = Some [VInt 9007199254740993; VInt 9007199254740992] /\
  show KInt "a" h' v = Some [VInt 9007199254740993; VInt 9007199254740992].
Proof. exact C12_sorted_view_big_ints_refuted_main. Qed.
Print Assumptions C12_sorted_view_big_ints_refuted.
Example C12_case : wf ex_h ex_d /\ asort_ok merge_asort /\
  (let '(v, h) := run_df (sorted_view (rt := ex_rt) merge_asort ex_d "a") ex_h in
   show KInt "a" h v = Some [VInt 1; VInt 3; VInt 5; VInt 9]) /\
  (let '(v, h) := run_df (sorted_view (rt := ex_rt) merge_asort ex_d "f") ex_h in
   show KInt "a" h v = Some [VInt 3; VInt 1; VInt 5; VInt 9]).
Proof. split; [exact ex_wf|]. split; [exact merge_asort_ok|]. by vm_compute. Qed.

(** C13 TopView returns the extreme rows. *)
Theorem C13_top_view_extremes : forall (rt : GoRT) (asort : list f64 -> list nat) (h : heap) (d : dframe)
    (c : string) (n : Z) (asc sorted : bool),
  wf h d -> asort_ok asort ->
  match top_view asort d c n asc sorted h with
  | Ok (v, h') => (0 <= n)%Z /\ exists q rest, q ++ rest ≡ₚ seq 0 (num_rows d) /\
      length q = Z.to_nat n `min` num_rows d /\ abs h' v = t_select q (abs h d) /\
      (forall col, sort_col (abs h d) c = Some col -> Forall sortable col ->
         (forall i j x y, i ∈ q -> j ∈ rest -> col !! i = Some x -> col !! j = Some y ->
            if asc then val_le x y else val_le y x) /\
         (sorted = true -> StronglySorted (if asc then val_le else flip val_le) (pick q col))) /\
      wf h' v /\ preserved h h' /\ h_arr h' = h_arr h
  | Panic => (sorted = true \/ n < Z.of_nat (num_rows d))%Z /\
             ((n < 0)%Z \/ sort_col (abs h d) c = None)
  end.
Proof. exact C13_top_view_extremes_main. Qed.
Print Assumptions C13_top_view_extremes.
Example C13_case : wf ex_h ex_d /\
  (let '(v, h) := run_df (top_view (rt := ex_rt) merge_asort ex_d "a" 2 false true) ex_h in
   show KInt "a" h v = Some [VInt 9; VInt 5]).
Proof. split; [exact ex_wf|]. by vm_compute. Qed.

(** C14 ResetIndexView orders the rows by storage position. *)
Theorem C14_reset_index_view : forall (h : heap) (d : dframe),
  wf h d ->
  exists p, p ≡ₚ seq 0 (num_rows d) /\ abs h (reset_index_view d) = t_select p (abs h d) /\
    inds (reset_index_view d) = pick p (inds d) /\ Sorted le (inds (reset_index_view d)) /\
    wf h (reset_index_view d).
Proof. exact C14_reset_index_view_main. Qed.
Print Assumptions C14_reset_index_view.
Example C14_case : wf ex_vh ex_v /\ inds (reset_index_view ex_v) = [0; 2; 2].
Proof. split; [exact ex_v_wf|]. by vm_compute. Qed.

(** C15 (first f_half) Get reads the table; writes are in Prop_Write.v. *)
Theorem C15_get_reads_the_table : forall (h : heap) (d : dframe) (k : kind) (c : string) (row : Z) (v : val),
  wf h d ->
  (exists h', get_cell k d c row h = Ok (v, h')) <->
  (0 <= row)%Z /\ exists col, t_cols (abs h d) !! (k, c) = Some col /\
                           col !! Z.to_nat row = Some v.
Proof. exact C15_get_reads_the_table_main. Qed.
Print Assumptions C15_get_reads_the_table.

(** C66 SliceView rejects out-of-range bounds: refuted. *)
Theorem C66_slice_view_out_of_range_refuted : exists (h : heap) (d v : dframe) (h' : heap),
  wf h d /\ num_rows d = 11 /\ slice_view (rt := ex_rt) d 8 12 h = Ok (v, h') /\
  num_rows v = 4 /\ get_cell KInt v "a" 2 h' = Ok (VInt 10, h') /\ get_cell KInt v "a" 3 h' = Panic.
Proof. exact C66_slice_view_out_of_range_refuted_main. Qed.
Print Assumptions C66_slice_view_out_of_range_refuted.
Theorem C66_slice_view_resurrects_rows_refuted : exists (h : heap) (d v : dframe) (h' : heap),
  wf h d /\ show KInt "a" h d = Some [VInt 5; VInt 3] /\
  slice_view (rt := ex_rt) d 1 4 h = Ok (v, h') /\
  show KInt "a" h' v = Some [VInt 3; VInt 9; VInt 1].
Proof. exact C66_slice_view_resurrects_rows_refuted_main. Qed.
Print Assumptions C66_slice_view_resurrects_rows_refuted.
