(** Writes, copies and structural changes: the property theorems C15-C19, C22,
    C23, C38, C39 and C67. *)
From Verif Require Import P_WriteMain.
(** The concrete cases use this runtime. *)
Local Existing Instance ex_rt.

(** C15 a write through one dataframe is seen exactly where the cell is shared.
    [cell_of h d k j] is the memory cell behind row j of column k. *)
Theorem C15_write_seen_where_shared : forall (rt : GoRT) (h : heap) (d : dframe) (k : kind)
    (c : string) (row : Z) (v : val),
  wf h d -> kind_of v = k ->
  match set_cell k d c row v h with
  | Ok (_, h') => exists a, (0 <= row)%Z /\ cell_of h d (k, c) (Z.to_nat row) = Some a /\
      get_cell k d c row h' = Ok (v, h') /\
      forall d2, wf h d2 -> wf h' d2 /\ same_shape (abs h d2) (abs h' d2) /\
        forall k2 j, t_cell (abs h' d2) k2 j =
          if decide (cell_of h d2 k2 j = Some a) then Some v else t_cell (abs h d2) k2 j
  | Panic => (row < 0 \/ Z.of_nat (num_rows d) <= row)%Z \/ t_cols (abs h d) !! (k, c) = None
  end.
Proof. exact C15_write_seen_where_shared_main. Qed.
Print Assumptions C15_write_seen_where_shared.
Example C15_case : wf ex_vh ex_v /\ wf ex_vh ex_d /\
  (let h' := run_unit (set_cell KInt ex_v "a" 0 (VInt 70)) ex_vh in
   show KInt "a" h' ex_v = Some [VInt 70; VInt 5; VInt 70] /\
   show KInt "a" h' ex_d = Some [VInt 5; VInt 3; VInt 70; VInt 1]).
Proof.
  split; [exact ex_v_wf|]. split; [apply (wf_check_sound _ _ 4); by vm_compute|]. by vm_compute.
Qed.

(** C16 DetachedView: detached columns have no cell in common with any older
    dataframe, so no sequence of writes through it is seen outside and no write
    outside is seen through it. That the other columns still share their cells
    holds unless as many names are given as there are columns. *)
Theorem C16_detached_view_isolates : forall (rt : GoRT) (h : heap) (d : dframe) (cols : list string),
  wf h d ->
  exists v h', detached_view d cols h = Ok (v, h') /\ wf h' v /\ abs h' v = abs h d /\
    preserved h h' /\
    (forall k, k.2 ∈ cols \/ cols = [] -> forall d0 k0, wf h d0 -> cells_apart h' v k d0 k0) /\
    (forall ws h2, writes_typed ws ->
       Forall (fun w : write_op => w.1.1.2 ∈ cols \/ cols = []) ws ->
       do_writes v ws h' = Ok (tt, h2) ->
       forall d0, wf h d0 -> wf h2 d0 /\ abs h2 d0 = abs h d0) /\
    (forall d0 ws h2, wf h d0 -> writes_typed ws -> do_writes d0 ws h' = Ok (tt, h2) ->
       forall k, k.2 ∈ cols \/ cols = [] -> t_cols (abs h2 v) !! k = t_cols (abs h d) !! k).
Proof. exact C16_detached_view_isolates_main. Qed.
Print Assumptions C16_detached_view_isolates.
Theorem C16_other_columns_shared : forall (rt : GoRT) (h : heap) (d : dframe) (cols : list string) v h',
  wf h d -> detached_view d cols h = Ok (v, h') ->
  cols <> [] -> length cols <> size (t_cols (abs h d)) ->
  forall k j, k.2 ∉ cols -> cell_of h' v k j = cell_of h d k j.
Proof. exact C16_other_columns_shared_main. Qed.
Print Assumptions C16_other_columns_shared.
Theorem C16_other_columns_refuted : exists (rt : GoRT) (h : heap) (d : dframe) cols v h' k j,
  wf h d /\ cols <> [] /\ detached_view d cols h = Ok (v, h') /\ k.2 ∉ cols /\
  is_Some (cell_of h d k j) /\ cell_of h' v k j <> cell_of h d k j.
Proof. exact C16_other_columns_refuted_main. Qed.
Print Assumptions C16_other_columns_refuted.
Example C16_case : wf ex_vh ex_v /\
  (let '(v, h) := run_df (detached_view ex_v ["a"]) ex_vh in
   let h := run_unit (do_writes v [((KInt, "a"), 0%Z, VInt 70)]) h in
   show KInt "a" h v = Some [VInt 70; VInt 5; VInt 70] /\
   show KInt "a" h ex_v = Some [VInt 9; VInt 5; VInt 9]).
Proof. split; [exact ex_v_wf|]. by vm_compute. Qed.

(** C17 Copy. The text encoding is not copied: see C67. *)
Theorem C17_copy_equal_independent : forall (rt : GoRT) (h : heap) (d : dframe),
  wf h d ->
  exists v h', copy_df d h = Ok (v, h') /\ wf h' v /\ d_viewed v = false /\
    inds v = seq 0 (num_rows d) /\
    t_rows (abs h' v) = t_rows (abs h d) /\ t_cols (abs h' v) = t_cols (abs h d) /\
    t_strs (abs h' v) = t_strs (abs h d) /\ t_cpu (abs h' v) = t_cpu (abs h d) /\
    preserved h h' /\
    (forall k d0 k0, wf h d0 -> cells_apart h' v k d0 k0) /\
    (forall ws h2, writes_typed ws -> do_writes v ws h' = Ok (tt, h2) ->
       forall d0, wf h d0 -> wf h2 d0 /\ abs h2 d0 = abs h d0) /\
    (forall d0 ws h2, wf h d0 -> writes_typed ws -> do_writes d0 ws h' = Ok (tt, h2) ->
       wf h2 v /\ abs h2 v = abs h' v) /\
    (forall os h2 v2, sruns h' v os h2 v2 ->
       wf h2 v2 /\ forall d0, wf h d0 -> wf h2 d0 /\ abs h2 d0 = abs h d0).
Proof. exact C17_copy_equal_independent_main. Qed.
Print Assumptions C17_copy_equal_independent.
Example C17_case : wf ex_vh ex_v /\
  (let '(v, h) := run_df (copy_df ex_v) ex_vh in
   let h := run_unit (do_writes v [((KInt, "a"), 0%Z, VInt 70)]) h in
   show KInt "a" h v = Some [VInt 70; VInt 5; VInt 9] /\
   show KInt "a" h ex_v = Some [VInt 9; VInt 5; VInt 9]).
Proof. split; [exact ex_v_wf|]. by vm_compute. Qed.

(** C18 any sequence of structural changes to a view (renaming non-string
    columns, allocating, creating by Overwrite*, converting, unsharing) leaves
    all dataframes that existed before as they were. Missing: Drop, AllocStrings
    and renaming a string column, for which the claim is false. *)
Theorem C18_view_structure_partial : forall (rt : GoRT) (h : heap) (d : dframe) os h' v',
  wf h d -> sruns h (view d) os h' v' ->
  wf h' v' /\ forall d0, wf h d0 -> wf h' d0 /\ abs h' d0 = abs h d0.
Proof. exact C18_view_structure_partial_main. Qed.
Print Assumptions C18_view_structure_partial.
Theorem C18_drop_refuted : exists (h : heap) (d : dframe) cols h',
  wf h d /\ drop_cols (d_raw (view d)) cols h = Ok (tt, h') /\
  t_cols (abs h' d) !! (KInt, "a") <> t_cols (abs h d) !! (KInt, "a").
Proof. exact C18_drop_refuted_main. Qed.
Print Assumptions C18_drop_refuted.
Theorem C18_alloc_strings_refuted : exists (rt : GoRT) (h : heap) (d : dframe) cols r' h',
  wf h d /\ alloc_strings (d_raw (view d)) cols h = Ok (r', h') /\
  t_strs (abs h' d) <> t_strs (abs h d).
Proof. exact C18_alloc_strings_refuted_main. Qed.
Print Assumptions C18_alloc_strings_refuted.
Theorem C18_rename_string_refuted : exists (rt : GoRT) (h : heap) (d : dframe) old new r' h',
  wf h d /\ rename (d_raw (view d)) old new h = Ok (r', h') /\
  t_strs (abs h' d) <> t_strs (abs h d).
Proof. exact C18_rename_string_refuted_main. Qed.
Print Assumptions C18_rename_string_refuted.
Example C18_case : exists h v, wf ex_h ex_d /\
  sruns ex_h (view ex_d)
    [SInts ["a"]; SRename "f" "g"; SCreate KInt "n" [VInt 1; VInt 2; VInt 3; VInt 4]] h v /\
  show KInt "n" h v = Some [VInt 1; VInt 2; VInt 3; VInt 4] /\ show KInt "n" h ex_d = None.
Proof.
  eexists _, _. split; [exact ex_wf|]. split.
  - eapply sruns_cons; [|by vm_compute|eapply sruns_cons; [|by vm_compute|
      eapply sruns_cons; [|by vm_compute|apply sruns_nil]]].
    + split; [repeat constructor; set_solver|]. intros c Hc%elem_of_list_singleton. subst.
      apply (bool_decide_unpack _). by vm_compute.
    + split; [done|]. apply (bool_decide_unpack _). by vm_compute.
    + split; [by vm_compute|]. split; [left; apply (bool_decide_unpack _); by vm_compute|].
      by repeat constructor.
  - by vm_compute.
Qed.

(** C19 Unshare. Partial: the column must be recorded as shared and the other
    dataframe must not use the very same map object; both hold right after
    ShallowCopy. Other views taken in between can destroy the record, so the
    full claim is false. *)
Theorem C19_unshare_private_partial : forall (rt : GoRT) (h : heap) (v : dframe) (cols : list string),
  wf h v -> (forall c, c ∈ cols -> c ∈ shared_cols h (d_raw v)) ->
  exists r' h', unshare (d_raw v) cols h = Ok (r', h') /\ wf h' (set_raw v r') /\
    abs h' (set_raw v r') = abs h v /\ preserved h h' /\
    forall ws h2, writes_typed ws -> Forall (fun w : write_op => w.1.1.2 ∈ cols) ws ->
      do_writes (set_raw v r') ws h' = Ok (tt, h2) ->
      forall d0, wf h d0 ->
        (r_sharedMaps (d_raw v) = true \/ r_maps (d_raw d0) <> r_maps (d_raw v)) ->
        abs h2 d0 = abs h d0.
Proof. exact C19_unshare_private_partial_main. Qed.
Print Assumptions C19_unshare_private_partial.
Theorem C19_after_shallow_copy : forall (rt : GoRT) (h : heap) (d : dframe) (cols : list string),
  wf h d ->
  exists v h1 r' h', shallow_copy d h = Ok (v, h1) /\ unshare (d_raw v) cols h1 = Ok (r', h') /\
    wf h' (set_raw v r') /\ preserved h h' /\
    t_cols (abs h' (set_raw v r')) = t_cols (abs h d) /\
    forall ws h2, writes_typed ws ->
      Forall (fun w : write_op => w.1.1.2 ∈ cols \/ cols = []) ws ->
      do_writes (set_raw v r') ws h' = Ok (tt, h2) ->
      forall d0, wf h d0 -> abs h2 d0 = abs h d0.
Proof. exact C19_after_shallow_copy_main. Qed.
Print Assumptions C19_after_shallow_copy.
Theorem C19_unshare_refuted : exists (rt : GoRT) h d sc h1 v h2 r1 h3 r2 h4 h5 x,
  wf h d /\ shallow_copy d h = Ok (sc, h1) /\ column_view sc ["a"] h1 = Ok (v, h2) /\
  unshare (d_raw v) ["a"] h2 = Ok (r1, h3) /\ unshare (d_raw sc) ["a"] h3 = Ok (r2, h4) /\
  set_cell KInt (set_raw sc r2) "a" 0 (VInt x) h4 = Ok (tt, h5) /\
  t_cell (abs h d) (KInt, "a") 0 <> Some (VInt x) /\
  t_cell (abs h5 d) (KInt, "a") 0 = Some (VInt x).
Proof. exact C19_unshare_refuted_main. Qed.
Print Assumptions C19_unshare_refuted.
Example C19_case : wf c19_h1 c19_sc /\ shared_cols c19_h1 (d_raw c19_sc) = {["a"; "b"; "f"; "s"]} /\
  r_maps (d_raw ex_d) <> r_maps (d_raw c19_sc).
Proof.
  split; [apply (wf_check_sound _ _ 4); by vm_compute|].
  split; [apply (bool_decide_unpack _); by vm_compute|]. by vm_compute.
Qed.

(** C22 Overwrite*. *)
Theorem C22_overwrite_existing : forall (rt : GoRT) (h : heap) (d : dframe) (k : kind)
    (strs : bool) (c : string) (vs : list val),
  wf h d -> is_Some (t_cols (abs h d) !! (k, c)) -> num_rows d <> 0 ->
  Forall (fun v => kind_of v = k) vs ->
  match overwrite k strs d c vs h with
  | Ok (d', h') => num_rows d <= length vs /\ d' = d /\
      (NoDup (inds d) -> t_cols (abs h' d) !! (k, c) = Some (take (num_rows d) vs)) /\
      forall d2, wf h d2 -> wf h' d2 /\ same_shape (abs h d2) (abs h' d2) /\
        forall k2 j,
          (NoDup (inds d) -> forall i a, cell_of h d2 k2 j = Some a -> cell_of h d (k, c) i = Some a ->
             t_cell (abs h' d2) k2 j = vs !! i) /\
          ((forall i a, cell_of h d2 k2 j = Some a -> cell_of h d (k, c) i <> Some a) ->
             t_cell (abs h' d2) k2 j = t_cell (abs h d2) k2 j)
  | Panic => length vs < num_rows d
  end.
Proof. exact C22_overwrite_existing_main. Qed.
Print Assumptions C22_overwrite_existing.
Theorem C22_overwrite_missing : forall (rt : GoRT) (h : heap) (d : dframe) (k : kind)
    (strs : bool) (c : string) (vs : list val),
  wf h d -> t_cols (abs h d) !! (k, c) = None -> t_cols (abs h d) <> ∅ \/ num_rows d = 0 ->
  (strs = true -> k = KObj) -> Forall (fun v => kind_of v = k) vs ->
  match overwrite k strs d c vs h with
  | Ok (d', h') => num_rows d <= length vs /\ wf h' d' /\
      (NoDup (inds d) -> abs h' d' = (if strs then t_mark {[c]} else id)
         (t_with_cols (abs h d) (<[(k, c) := take (num_rows d) vs]> (t_cols (abs h d)))))
  | Panic => length vs < num_rows d
  end.
Proof. exact C22_overwrite_missing_main. Qed.
Print Assumptions C22_overwrite_missing.
Theorem C22_overwrite_missing_refuted : exists (rt : GoRT) h d k c vs,
  wf h d /\ Forall (fun v => kind_of v = k) vs /\ num_rows d <= length vs /\
  overwrite k false d c vs h = Panic.
Proof. exact C22_overwrite_missing_refuted_main. Qed.
Print Assumptions C22_overwrite_missing_refuted.
Example C22_case : wf ex_vh ex_v /\
  (let '(v, h) := run_df (overwrite KObj true ex_v "n" [VObj (OStr "p"); VObj ONil; VObj (OStr "q"); VObj (OStr "r")]) ex_vh in
   show KObj "n" h v = Some [VObj (OStr "q"); VObj ONil; VObj (OStr "q")]) /\
  overwrite KInt false ex_v "a" [VInt 1; VInt 2] ex_vh = Panic.
Proof. split; [exact ex_v_wf|]. by vm_compute. Qed.

(** C23 masks, for every well-formed dataframe; that every reachable dataframe
    is well-formed is C20. *)
Theorem C23_zero_mask : forall (rt : GoRT) (h : heap) (d : dframe), wf h d ->
  exists s h', zero_mask d h = Ok (s, h') /\ msl_vals h' s = replicate (num_rows d) false /\
    preserved h h' /\ h_arr h' = h_arr h.
Proof. exact C23_zero_mask_main. Qed.
Print Assumptions C23_zero_mask.
Theorem C23_empty_mask : forall (rt : GoRT) (h : heap) (d : dframe), wf h d ->
  exists s h', empty_mask d h = Ok (s, h') /\ length (msl_vals h' s) = num_rows d /\
    preserved h h' /\ h_arr h' = h_arr h.
Proof. exact C23_empty_mask_main. Qed.
Print Assumptions C23_empty_mask.
Example C23_case : wf ex_vh ex_v /\ num_rows ex_v = 3.
Proof. split; [exact ex_v_wf|]. by vm_compute. Qed.

(** C38 conversions. IntToFloats as documented; BoolToFloats creates the right
    float column but leaves the bool column in place ([t_bool_float]). *)
Theorem C38_int_to_floats : forall (rt : GoRT) (h : heap) (d : dframe) (cols : list string),
  wf h d -> NoDup cols -> (forall c, c ∈ cols -> is_Some (t_cols (abs h d) !! (KInt, c))) ->
  exists r' h', int_to_floats (d_raw d) cols h = Ok (r', h') /\ wf h' (set_raw d r') /\
    abs h' (set_raw d r') = foldl (fun t c => t_to_float KInt c t) (abs h d) cols /\
    (forall d0, wf h d0 -> wf h' d0).
Proof. exact C38_int_to_floats_main. Qed.
Print Assumptions C38_int_to_floats.
Theorem C38_conversion_columns : forall k cols t, NoDup cols ->
  let t' := foldl (fun t c => t_to_float k c t) t cols in
  k <> KFloat ->
  (forall c x, c ∈ cols -> t_cols t !! (k, c) = Some x ->
     t_cols t' !! (KFloat, c) = Some (val_num <$> x) /\ t_cols t' !! (k, c) = None) /\
  (forall kk, kk.2 ∉ cols \/ (kk.1 <> k /\ kk.1 <> KFloat) -> t_cols t' !! kk = t_cols t !! kk) /\
  t_rows t' = t_rows t /\ t_strs t' = t_strs t.
Proof. exact C38_conversion_columns_main. Qed.
Print Assumptions C38_conversion_columns.
Theorem C38_bool_to_floats_partial : forall (rt : GoRT) (h : heap) (d : dframe) (cols : list string),
  wf h d -> NoDup cols -> (forall c, c ∈ cols -> is_Some (t_cols (abs h d) !! (KBool, c))) ->
  exists r' h', bool_to_floats (d_raw d) cols h = Ok (r', h') /\ wf h' (set_raw d r') /\
    abs h' (set_raw d r') = foldl (fun t c => t_bool_float c t) (abs h d) cols /\
    (forall d0, wf h d0 -> wf h' d0).
Proof. exact C38_bool_to_floats_partial_main. Qed.
Print Assumptions C38_bool_to_floats_partial.
Theorem C38_bool_to_floats_refuted : exists (rt : GoRT) h d c r' h',
  wf h d /\ is_Some (t_cols (abs h d) !! (KBool, c)) /\
  bool_to_floats (d_raw d) [c] h = Ok (r', h') /\
  is_Some (t_cols (abs h' (set_raw d r')) !! (KBool, c)).
Proof. exact C38_bool_to_floats_refuted_main. Qed.
Print Assumptions C38_bool_to_floats_refuted.
Example C38_case : wf ex_vh ex_v /\
  (let '(r, h) := run_raw (int_to_floats (d_raw ex_v) ["a"]) ex_vh in
   show KFloat "a" h (set_raw ex_v r) = Some [VFloat (f64_of_Z 9); VFloat (f64_of_Z 5); VFloat (f64_of_Z 9)] /\
   show KInt "a" h (set_raw ex_v r) = None).
Proof. split; [exact ex_v_wf|]. by vm_compute. Qed.

(** C39 Rename, with different names; Rename(a, a) deletes the column. *)
Theorem C39_rename_moves_partial : forall (rt : GoRT) (h : heap) (d : dframe) (old new : string),
  wf h d -> old <> new ->
  match rename (d_raw d) old new h with
  | Ok (r', h') => exists k col, rename_col (abs h d) old = Some (k, col) /\
      wf h' (set_raw d r') /\ abs h' (set_raw d r') = t_rename k old new (abs h d) /\
      (forall d0, wf h d0 -> wf h' d0)
  | Panic => forall k, t_cols (abs h d) !! (k, old) = None
  end.
Proof. exact C39_rename_moves_partial_main. Qed.
Print Assumptions C39_rename_moves_partial.
Theorem C39_rename_columns : forall k old new t col, old <> new ->
  t_cols t !! (k, old) = Some col ->
  t_cols (t_rename k old new t) !! (k, new) = Some col /\
  t_cols (t_rename k old new t) !! (k, old) = None /\
  (forall kk, kk <> (k, old) -> kk <> (k, new) ->
     t_cols (t_rename k old new t) !! kk = t_cols t !! kk).
Proof. exact C39_rename_columns_main. Qed.
Print Assumptions C39_rename_columns.
Theorem C39_rename_same_refuted : exists (rt : GoRT) h d c r' h',
  wf h d /\ is_Some (t_cols (abs h d) !! (KInt, c)) /\ rename (d_raw d) c c h = Ok (r', h') /\
  t_cols (abs h' (set_raw d r')) !! (KInt, c) = None.
Proof. exact C39_rename_same_refuted_main. Qed.
Print Assumptions C39_rename_same_refuted.
Example C39_case : wf ex_vh ex_v /\
  (let '(r, h) := run_raw (rename (d_raw ex_v) "s" "t") ex_vh in
   show KObj "t" h (set_raw ex_v r) = show KObj "s" ex_vh ex_v /\
   elements (t_strs (abs h (set_raw ex_v r))) = ["t"]).
Proof. split; [exact ex_v_wf|]. by vm_compute. Qed.

(** C67 Copy and ShallowCopy should keep the text encoding; they do not. *)
Theorem C67_copies_keep_encoding_refuted : exists (rt : GoRT) h d s h1 c h2,
  wf h d /\ shallow_copy d h = Ok (s, h1) /\ copy_df d h = Ok (c, h2) /\
  t_enc (abs h1 s) <> t_enc (abs h d) /\ t_enc (abs h2 c) <> t_enc (abs h d).
Proof. exact C67_copies_keep_encoding_refuted_main. Qed.
Print Assumptions C67_copies_keep_encoding_refuted.
