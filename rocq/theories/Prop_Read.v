(** Hashing, reading, concatenating and building: the property theorems C24-C26,
    C29-C34, C36 and C37. *)
From Verif Require Import P_ReadMain.
(** The concrete cases use this runtime. *)
Local Existing Instance ex_rt.

(** C24 HashStringsView. The claim is false when every column is hashed; that
    the schedule of the workers does not matter is C42. *)
Theorem C24_hash_view_partial : forall (rt : GoRT) (h : heap) (d : dframe) (cols : list string),
  wf h d -> cols <> [] ->
  (forall c, c ∈ cols -> is_Some (t_cols (abs h d) !! (KObj, c))) ->
  (exists k, is_Some (t_cols (abs h d) !! k) /\ k.2 ∉ cols) ->
  exists v h', hash_strings_view d cols h = Ok (v, h') /\ wf h' v /\ preserved h h' /\
    abs h' v = t_hash cols (abs h d).
Proof. exact C24_hash_view_partial_main. Qed.
Print Assumptions C24_hash_view_partial.
Theorem C24_hashed_columns : forall (t : table) (cols : list string) (k : kind) (c : string),
  (forall c, c ∈ cols -> is_Some (t_cols t !! (KObj, c))) ->
  t_cols (t_hash cols t) !! (k, c) =
    if decide (c ∈ cols) then
      match k with KInt => fmap spec_hash <$> t_cols t !! (KObj, c) | _ => None end
    else t_cols t !! (k, c).
Proof. exact C24_hashed_columns_main. Qed.
Print Assumptions C24_hashed_columns.
Theorem C24_hash_range : forall (s : string), exists z,
  spec_hash (VObj (OStr s)) = VInt z /\ (0 <= z < 2 ^ 63 - 1)%Z /\ (0 <= spec_fnv1a s < 2 ^ 64)%Z.
Proof. exact C24_hash_range_main. Qed.
Print Assumptions C24_hash_range.
Theorem C24_all_columns_refuted : exists (rt : GoRT) (h : heap) (d : dframe) cols v h',
  wf h d /\ (forall c, c ∈ cols -> is_Some (t_cols (abs h d) !! (KObj, c)) /\ c ∈ t_strs (abs h d)) /\
  hash_strings_view d cols h = Ok (v, h') /\ "s" ∈ cols /\
  is_Some (t_cols (abs h' v) !! (KObj, "s")) /\
  t_cols (abs h' d) !! (KInt, "s") <> t_cols (abs h d) !! (KInt, "s").
Proof. exact C24_all_columns_refuted_main. Qed.
Print Assumptions C24_all_columns_refuted.
Example C24_case : wf ex_vh ex_v /\ is_Some (t_cols (abs ex_vh ex_v) !! (KObj, "s")) /\
  (let '(v, h) := run_df (hash_strings_view ex_v ["s"]) ex_vh in
   show KInt "s" h v = Some (spec_hash <$> [VObj (OStr "yy"); VObj (OStr "x"); VObj (OStr "yy")]) /\
   show KObj "s" h v = None /\ show KInt "a" h v = Some [VInt 9; VInt 5; VInt 9]).
Proof. split; [exact ex_v_wf|]. split; [apply (bool_decide_unpack _); by vm_compute|]. by vm_compute. Qed.
(** The published test vectors of FNV-1a, 64 bits. *)
Example C24_fnv_vectors : spec_fnv1a "" = 0xcbf29ce484222325%Z /\ spec_fnv1a "a" = 0xaf63dc4c8601ec8c%Z /\
  spec_fnv1a "foobar" = 0x85944171f73967e8%Z.
Proof. by vm_compute. Qed.

(** C25 LabelToInt. *)
Theorem C25_label_bijection : forall (rt : GoRT) (h : heap) (d : dframe) (c : string) (col : list val),
  wf h d -> t_cols (abs h d) !! (KObj, c) = Some col ->
  match label_to_int d c h with
  | Ok ((l, m), h') => h' = h /\ c ∈ t_strs (abs h d) /\ Forall string_val col /\
      (* the map is a bijection from the strings of the column to 0..k-1 *)
      (forall s, is_Some (m !! s) <-> VObj (OStr s) ∈ col) /\
      (forall s1 s2 o, m !! s1 = Some o -> m !! s2 = Some o -> s1 = s2) /\
      (forall o, (0 <= o < Z.of_nat (size m))%Z <-> exists s, m !! s = Some o) /\
      (* in the order of first appearance *)
      (forall i s, first_seen [] col !! i = Some s <-> m !! s = Some (Z.of_nat i)) /\
      (* every row is converted *)
      Forall2 (fun v o => match v with
                          | VObj (OStr s) => m !! s = Some o
                          | _ => o = (-1)%Z end) col l
  | Panic => c ∉ t_strs (abs h d) \/ Exists (fun v => ~ string_val v) col
  end.
Proof. exact C25_label_bijection_main. Qed.
Print Assumptions C25_label_bijection.
Definition c25_m : gmap string Z := match label_to_int ex_d "s" ex_h with Ok ((_, m), _) => m | Panic => ∅ end.
Example C25_case : wf ex_h ex_d /\ exists col m, t_cols (abs ex_h ex_d) !! (KObj, "s") = Some col /\
  label_to_int ex_d "s" ex_h = Ok (([0; -1; 1; 0]%Z, m), ex_h) /\ m !! "x" = Some 0%Z /\ m !! "yy" = Some 1%Z.
Proof.
  split; [exact ex_wf|]. eexists _, c25_m.
  split; [by vm_compute|]. split; by vm_compute.
Qed.

(** C26 CopyValuesToInterfaces. *)
Theorem C26_copy_values : forall (rt : GoRT) (h : heap) (d : dframe) (c : string), wf h d ->
  match copy_values d c h with
  | Ok (vs, h') => h' = h /\ length vs = num_rows d /\ exists k, t_cols (abs h d) !! (k, c) = Some vs
  | Panic => forall k, t_cols (abs h d) !! (k, c) = None
  end.
Proof. exact C26_copy_values_main. Qed.
Print Assumptions C26_copy_values.
Example C26_case : wf ex_vh ex_v /\ copy_values ex_v "f" ex_vh = Ok ([VBool true; VBool true; VBool true], ex_vh) /\
  copy_values ex_v "zz" ex_vh = Panic.
Proof. split; [exact ex_v_wf|]. split; by vm_compute. Qed.

(** C29 VecDense and VecDenseCopy. *)
Theorem C29_vec_dense : forall (rt : GoRT) (h : heap) (d : dframe) (c : string), wf h d ->
  vec_dense d c h = match t_cols (abs h d) !! (KFloat, c) with Some vs => Ok (vs, h) | None => Panic end /\
  vec_dense_copy d c h = match t_cols (abs h d) !! (KFloat, c) with Some vs => Ok (vs, h) | None => Panic end.
Proof. exact C29_vec_dense_main. Qed.
Print Assumptions C29_vec_dense.
Example C29_case : wf ex_vh ex_v /\
  vec_dense ex_v "b" ex_vh = Ok ([VFloat f64_one; VFloat f_half; VFloat f64_one], ex_vh).
Proof. split; [exact ex_v_wf|]. by vm_compute. Qed.

(** C30 RowConcat. It fails exactly when some dataframe lacks a column of the
    first one; the claim that extra columns are an error too is false. *)
Theorem C30_row_concat_partial : forall (rt : GoRT) (h : heap) (d0 : dframe) (rest : list dframe),
  Forall (wf h) (d0 :: rest) ->
  match row_concat (d0 :: rest) h with
  | Ok (Some v, h') => Forall (fun d => has_cols (abs h d0) (abs h d)) rest /\ wf h' v /\
      abs h' v = t_stack (abs h d0) (abs h <$> d0 :: rest) /\ preserved h h' /\ independent h h' v
  | Ok (None, h') => Exists (fun d => ~ has_cols (abs h d0) (abs h d)) rest /\ preserved h h'
  | Panic => False
  end.
Proof. exact C30_row_concat_partial_main. Qed.
Print Assumptions C30_row_concat_partial.
Theorem C30_error_columns_refuted : exists (rt : GoRT) h d0 d1 v h',
  wf h d0 /\ wf h d1 /\ ~ same_cols (abs h d0) (abs h d1) /\
  row_concat [d0; d1] h = Ok (Some v, h') /\ t_cols (abs h' v) !! (KInt, "q") <> Some [VInt 7].
Proof. exact C30_error_columns_refuted_main. Qed.
Print Assumptions C30_error_columns_refuted.
Example C30_case : Forall (wf ex_vh) [ex_v; ex_d] /\
  (let '(v, h) := run_odf (row_concat [ex_v; ex_d]) ex_vh in
   show KInt "a" h v = Some [VInt 9; VInt 5; VInt 9; VInt 5; VInt 3; VInt 9; VInt 1]).
Proof.
  split; [|by vm_compute]. constructor; [exact ex_v_wf|]. constructor; [|constructor].
  apply (wf_check_sound _ _ 4). by vm_compute.
Qed.
Example C30_case_error : wf c30_h c30_pq /\ wf c30_h c30_p /\
  exists h', row_concat [c30_pq; c30_p] c30_h = Ok (None, h').
Proof.
  split; [apply (wf_check_sound _ _ 1); by vm_compute|]. split; [apply (wf_check_sound _ _ 2); by vm_compute|].
  eexists. by vm_compute.
Qed.

(** C31 ColumnConcatView. Proved for inputs with the same row indices. The
    claims about row counts, string marks and different indices are false. *)
Theorem C31_concat_view_partial : forall (rt : GoRT) (h : heap) (d0 : dframe) (rest : list dframe),
  Forall (wf h) (d0 :: rest) ->
  let ts := abs h <$> d0 :: rest in
  match column_concat_view (d0 :: rest) h with
  | Ok (None, h') => h' = h /\
      (~ NoDup (concat (t_names <$> ts)) \/ exists d, d ∈ rest /\ inds d <> inds d0)
  | Ok (Some v, h') => NoDup (concat (t_names <$> ts)) /\ preserved h h' /\
      (Forall (fun d => inds d = inds d0) rest ->
         abs h' v = t_beside (abs h d0) ts (if decide (t_strs (abs h d0) = ∅) then ∅ else ⋃ (t_strs <$> ts)) /\
         (forall d k j, d ∈ d0 :: rest -> is_Some (t_cols (abs h d) !! k) -> cell_of h' v k j = cell_of h d k j) /\
         ((exists n, Forall (fun d => wfn h d n) (d0 :: rest)) -> wf h' v))
  | Panic => False
  end.
Proof. exact C31_concat_view_partial_main. Qed.
Print Assumptions C31_concat_view_partial.
Theorem C31_rows_refuted : exists (rt : GoRT) h d0 d1 v h',
  wf h d0 /\ wf h d1 /\ t_rows (abs h d0) <> t_rows (abs h d1) /\
  column_concat_view [d0; d1] h = Ok (Some v, h') /\ ~ wf h' v /\
  (* reading an existing row of the result panics *)
  (2 < t_rows (abs h' v))%nat /\ get_cell KInt v "p" 2 h' = Panic.
Proof. exact C31_rows_refuted_main. Qed.
Print Assumptions C31_rows_refuted.
Theorem C31_string_marks_refuted : exists (rt : GoRT) h d0 d1 v h',
  wf h d0 /\ wf h d1 /\ inds d0 = inds d1 /\ "t" ∈ t_strs (abs h d1) /\
  column_concat_view [d0; d1] h = Ok (Some v, h') /\
  is_Some (t_cols (abs h' v) !! (KObj, "t")) /\ "t" ∉ t_strs (abs h' v).
Proof. exact C31_string_marks_refuted_main. Qed.
Print Assumptions C31_string_marks_refuted.
Theorem C31_hash_collision_refuted : exists (rt : GoRT) h d0 d1 v h',
  wf h d0 /\ wf h d1 /\ inds d0 <> inds d1 /\
  column_concat_view [d0; d1] h = Ok (Some v, h') /\
  t_cols (abs h' v) !! (KInt, "b") <> t_cols (abs h d1) !! (KInt, "b").
Proof. exact C31_hash_collision_refuted_main. Qed.
Print Assumptions C31_hash_collision_refuted.
Example C31_case : Forall (wf c30_h) [c30_t; c30_p] /\ Forall (fun d => inds d = inds c30_t) [c30_p] /\
  (let '(v, h) := run_odf (column_concat_view [c30_t; c30_p]) c30_h in
   show KInt "p" h v = Some [VInt 1; VInt 2] /\ show KObj "t" h v = Some [VObj (OStr "x"); VObj (OStr "y")]).
Proof.
  split. { repeat constructor; apply (wf_check_sound _ _ 2); by vm_compute. }
  split; [by repeat constructor|]. by vm_compute.
Qed.

(** C32 ColumnCopyConcat. *)
Theorem C32_copy_concat : forall (rt : GoRT) (h : heap) (d0 : dframe) (rest : list dframe),
  Forall (wf h) (d0 :: rest) ->
  let ts := abs h <$> d0 :: rest in
  match column_copy_concat (d0 :: rest) h with
  | Ok (Some v, h') => Forall (fun t => t_rows t = t_rows (abs h d0)) ts /\ NoDup (concat (t_names <$> ts)) /\
      wf h' v /\
      abs h' v = t_beside (abs h d0) ts (if decide (t_strs (abs h d0) = ∅) then ∅ else ⋃ (t_strs <$> ts)) /\
      preserved h h' /\ independent h h' v
  | Ok (None, h') => preserved h h' /\
      (~ Forall (fun t => t_rows t = t_rows (abs h d0)) ts \/ ~ NoDup (concat (t_names <$> ts)))
  | Panic => False
  end.
Proof. exact C32_copy_concat_main. Qed.
Print Assumptions C32_copy_concat.
Theorem C32_beside_columns : forall (t0 : table) (ts : list table) strs (k : key) (col : list val),
  NoDup (concat (t_names <$> ts)) ->
  t_cols (t_beside t0 ts strs) !! k = Some col <-> exists t, t ∈ ts /\ t_cols t !! k = Some col.
Proof. exact C32_beside_columns_main. Qed.
Print Assumptions C32_beside_columns.
Example C32_case : Forall (wf c31_bvh) [c31_bv; c31_av] /\
  (let '(v, h) := run_odf (column_copy_concat [c31_bv; c31_av]) c31_bvh in
   show KInt "a" h v = Some [VInt 0; VInt 7] /\ show KInt "b" h v = Some [VInt 1; VInt 0]).
Proof. split; [|by vm_compute]. repeat constructor; apply (wf_check_sound _ _ 8); by vm_compute. Qed.

(** C33 ColumnSmartConcat: proved when equal hashes mean equal indices and,
    without index views, the row counts agree. *)
Theorem C33_smart_concat_partial : forall (rt : GoRT) (h : heap) (d0 : dframe) (rest : list dframe),
  Forall (wf h) (d0 :: rest) ->
  (* when none of them is an index view, the row counts agree *)
  ((forall d, d ∈ d0 :: rest -> d_viewed d = false) -> forall d, d ∈ rest -> num_rows d = num_rows d0) ->
  (* the hash tells the index lists of the inputs apart *)
  (forall d, d ∈ rest -> hash_int_slice (inds d) = hash_int_slice (inds d0) -> inds d = inds d0) ->
  let ts := abs h <$> d0 :: rest in
  match column_smart_concat (d0 :: rest) h with
  | Ok (Some v, h') => NoDup (concat (t_names <$> ts)) /\ preserved h h' /\
      t_rows (abs h' v) = t_rows (abs h d0) /\
      (forall k col, t_cols (abs h' v) !! k = Some col <-> exists t, t ∈ ts /\ t_cols t !! k = Some col)
  | Ok (None, h') => preserved h h' /\
      (~ Forall (fun t => t_rows t = t_rows (abs h d0)) ts \/ ~ NoDup (concat (t_names <$> ts)))
  | Panic => False
  end.
Proof. exact C33_smart_concat_partial_main. Qed.
Print Assumptions C33_smart_concat_partial.
Theorem C33_smart_concat_refuted : exists (rt : GoRT) h d0 d1 v h',
  wf h d0 /\ wf h d1 /\ column_smart_concat [d0; d1] h = Ok (Some v, h') /\
  t_cols (abs h' v) !! (KInt, "b") <> t_cols (abs h d1) !! (KInt, "b").
Proof. exact C33_smart_concat_refuted_main. Qed.
Print Assumptions C33_smart_concat_refuted.
Example C33_case : Forall (wf c31_wh) [c31_w; c31_b] /\
  (let '(v, h) := run_odf (column_smart_concat [c30_t; c30_p]) c30_h in
   show KInt "p" h v = Some [VInt 1; VInt 2]) /\
  (forall d, d ∈ [c30_p] -> hash_int_slice (inds d) = hash_int_slice (inds c30_t) -> inds d = inds c30_t) /\
  (forall d, d ∈ [c30_p] -> num_rows d = num_rows c30_t).
Proof.
  split. { repeat constructor; apply (wf_check_sound _ _ 8); by vm_compute. }
  split; [by vm_compute|]. split; intros d ->%elem_of_list_singleton; by vm_compute.
Qed.

(** C34 MergeRawDataRows: the columns and their storage. That string columns
    stay string columns is false. *)
Theorem C34_merge_rows_partial : forall (rt : GoRT) (h : heap) (l : list raw), Forall (raw_ok h) l ->
  exists r h', merge_raw_rows l h = Ok (r, h') /\ preserved h h' /\ raw_ok h' r /\
    (forall k s, mp h' (r_maps r) !! k = Some s -> length (h_arr h) <= s_arr s \/ s_cap s = 0) /\
    (forall k, match raw_cols h' r !! k with
       | Some vs => (exists d, d ∈ l /\ is_Some (raw_cols h d !! k)) /\
           vs = concat ((fun d => default [] (raw_cols h d !! k)) <$> l)
       | None => forall d, d ∈ l -> raw_cols h d !! k = None
       end).
Proof. exact C34_merge_rows_partial_main. Qed.
Print Assumptions C34_merge_rows_partial.
Theorem C34_string_columns_refuted : exists (rt : GoRT) h d r h',
  wf h d /\ "s" ∈ t_strs (abs h d) /\ merge_raw_rows [d_raw d; d_raw d] h = Ok (r, h') /\
  is_Some (raw_cols h' r !! (KObj, "s")) /\ r_strs r = None.
Proof. exact C34_string_columns_refuted_main. Qed.
Print Assumptions C34_string_columns_refuted.
Example C34_case : raw_cols c34_h c34_r !! (KInt, "a") =
  Some (VInt <$> [5; 3; 9; 1; 5; 3; 9; 1]%Z).
Proof. by vm_compute. Qed.

(** C36 ToDataFrame, for every order in which the columns are visited. *)
Theorem C36_to_dataframe : forall (rt : GoRT) (h : heap) (r : raw) (ord : list (key * slice)),
  raw_ok h r -> (forall x, r_strs r = Some x -> x < length (h_str h)) ->
  ord ≡ₚ map_to_list (mp h (r_maps r)) ->
  match to_dataframe_ord ord r h with
  | Ok (d, h') => exists n, (forall k vs, raw_cols h r !! k = Some vs -> length vs = n) /\
      (raw_cols h r = ∅ -> n = 0) /\ wf h' d /\ preserved h h' /\
      abs h' d = Table n (raw_cols h r) (ostr h (r_strs r)) (r_enc r) (r_cpu r)
  | Panic => exists k1 k2 v1 v2, raw_cols h r !! k1 = Some v1 /\ raw_cols h r !! k2 = Some v2 /\ length v1 <> length v2
  end.
Proof. exact C36_to_dataframe_main. Qed.
Print Assumptions C36_to_dataframe.
Example C36_case_panic : to_dataframe_ord
    [((KInt, "a"), Slice 0 0 1 1); ((KInt, "b"), Slice 0 0 0 0)]
    (Raw 0 None false None 0 None)
    (Heap [[VInt 1]] [] [list_to_map [((KInt, "a"), Slice 0 0 1 1); ((KInt, "b"), Slice 0 0 0 0)]] [] []) = Panic.
Proof. by vm_compute. Qed.
Example C36_case : wf ex_h ex_d /\ show KBool "f" ex_h ex_d = Some [VBool true; VBool false; VBool true; VBool false].
Proof. split; [exact ex_wf|by vm_compute]. Qed.

(** C37 the builder, when each slice given to Set* is used once. With a slice
    given twice the claim is false. *)
Theorem C37_builder_partial : forall (rt : GoRT) (h : heap) (os : list bop), Forall bop_typed os ->
  let b := foldl spec_bop (BState ∅ ∅ None) os in
  exists r h', (let* r := new_raw in run_bops r os) h = Ok (r, h') /\ preserved h h' /\ raw_ok h' r /\
    raw_cols h' r = bs_cols b /\ ostr h' (r_strs r) = bs_strs b /\ r_enc r = bs_enc b.
Proof. exact C37_builder_partial_main. Qed.
Print Assumptions C37_builder_partial.
Theorem C37_aliased_set_refuted : exists (rt : GoRT) (h : heap) (s : slice) r h',
  (let* r := new_raw in
   let* r := b_set KInt r "a" s in
   let* r := b_set KInt r "b" s in
   let* r := b_add KInt r "a" [VInt 1] in b_add KInt r "b" [VInt 2]) h = Ok (r, h') /\
  col_ok h KInt s /\ sl_vals h s = [] /\ raw_cols h' r !! (KInt, "a") = Some [VInt 2].
Proof. exact C37_aliased_set_refuted_main. Qed.
Print Assumptions C37_aliased_set_refuted.
Example C37_case :
  let os := [BAdd KInt "a" [VInt 1; VInt 2]; BSet KInt "b" [VInt 3] [VInt 0]; BAdd KInt "b" [VInt 4];
             BAddStrings "s" ["x"]; BAdd KInt "a" [VInt 5]] in
  let b := foldl spec_bop (BState ∅ ∅ None) os in
  Forall bop_typed os /\ bs_cols b !! (KInt, "a") = Some [VInt 1; VInt 2; VInt 5] /\
  bs_cols b !! (KInt, "b") = Some [VInt 3; VInt 4] /\ bs_strs b = {["s"]}.
Proof.
  split; [repeat constructor|]. split; [by vm_compute|]. split; [by vm_compute|].
  apply (bool_decide_unpack _). by vm_compute.
Qed.
