(** Row iterators and dense matrices: the property theorems C27, C28 and C69. *)
From Verif Require Import P_BatchMain.
Local Existing Instance ex_rt.

(** C27 any sequence of NextRow calls, the caller overwriting delivered rows as
    it likes, delivers the rows in order, then nil and the sizes; also after
    Reset, with or without check. *)
Theorem C27_iterator : forall (rt : GoRT) (h : heap) (d : dframe) (cols : list string) (es : list (option (list f64))),
  wf h d ->
  match new_iterator d cols h with
  | Ok (it, h1) => h1 = h /\ exists ks it', num_keys (abs h d) cols = Some ks /\
      iterate it es h = Ok ((nth_row h d ks <$> seq 0 (length es), it'), h) /\
      (* Reset: the same again, on another dataframe with these columns *)
      forall (d2 : dframe) (check : bool) (es2 : list (option (list f64))), wf h d2 ->
        match it_reset it' d2 check h with
        | Ok (it2, h2) => h2 = h /\
            (Forall (fun k => is_Some (t_cols (abs h d2) !! k)) ks ->
               exists it3, iterate it2 es2 h = Ok ((nth_row h d2 ks <$> seq 0 (length es2), it3), h)) /\
            (check = true -> Forall (fun k => is_Some (t_cols (abs h d2) !! k)) ks)
        | Panic => check = true /\ ~ Forall (fun k => is_Some (t_cols (abs h d2) !! k)) ks
        end
  | Panic => num_keys (abs h d) cols = None
  end.
Proof. exact C27_iterator_main. Qed.
Print Assumptions C27_iterator.
Theorem C27_rows : forall (h : heap) (d : dframe) (ks : list key) (n : nat), wf h d ->
  (n < num_rows d -> exists i, inds d !! n = Some i /\ nth_row h d ks n =
     (Some ((fun k => f32_of_val (default (VInt 0) (default [] (t_cols (abs h d) !! k) !! n))) <$> ks), n, i)) /\
  (num_rows d <= n -> nth_row h d ks n = (None, num_rows d, num_alloc_rows (mp h (r_maps (d_raw d))))).
Proof. exact C27_rows_main. Qed.
Print Assumptions C27_rows.
Example C27_case : wf ex_vh ex_v /\
  match (let* it := new_iterator ex_v ["a"] in iterate it [None; Some [f64_zero]; None; None]) ex_vh with
  | Ok ((rows, _), _) => (fun r : option (list f64) * nat * nat => (bool_decide (is_Some r.1.1), r.1.2, r.2)) <$> rows =
      [(true, 0, 2); (true, 1, 0); (true, 2, 2); (false, 3, 4)]
  | Panic => False end.
Proof. split; [exact ex_v_wf|]. by vm_compute. Qed.

(** C28 the first matrix is always right and so are the later ones, as long as
    no dataframe is longer than the first one or there is one column. *)
Theorem C28_first_matrix : forall (rt : GoRT) (h : heap) (d : dframe) (cols : list string), wf h d ->
  match dense_matrix (new_dense cols) d h with
  | Ok ((rows, db), h') => h' = h /\ exists ks, num_keys (abs h d) cols = Some ks /\
      rows = t_num_rows f64_of_val (abs h d) ks /\ 0 < num_rows d /\ cols <> []
  | Panic => num_keys (abs h d) cols = None \/ num_rows d = 0 \/ cols = []
  end.
Proof. exact C28_first_matrix_main. Qed.
Print Assumptions C28_first_matrix.
Theorem C28_later_matrices_partial : forall (rt : GoRT) (h : heap) (cols : list string) (d0 : dframe) (ds : list dframe) (ks : list key),
  wf h d0 -> 0 < num_rows d0 -> cols <> [] -> num_keys (abs h d0) cols = Some ks ->
  Forall (fun d => wf h d /\ 0 < num_rows d /\ Forall (fun k => is_Some (t_cols (abs h d) !! k)) ks /\
    (* no dataframe is longer than the first one, unless there is a single column *)
    (num_rows d <= num_rows d0 \/ length cols = 1)) ds ->
  run_dense (new_dense cols) (d0 :: ds) h = Ok ((fun d => t_num_rows f64_of_val (abs h d) ks) <$> d0 :: ds, h).
Proof. exact C28_later_matrices_partial_main. Qed.
Print Assumptions C28_later_matrices_partial.
Example C28_case : wf c28_h c28_d1 /\ wf c28_h c28_d2 /\
  num_keys (abs c28_h c28_d2) ["a"; "b"; "c"] = Some [(KFloat, "a"); (KFloat, "b"); (KFloat, "c")] /\
  0 < num_rows c28_d1 <= num_rows c28_d2.
Proof.
  split; [apply (wf_check_sound _ _ 11); by vm_compute|]. split; [apply (wf_check_sound _ _ 12); by vm_compute|].
  split; [by vm_compute|]. split; apply (bool_decide_unpack _); by vm_compute.
Qed.
Theorem C28_longer_dataframe_refuted : exists (rt : GoRT) (h : heap) (d1 d2 : dframe) (ks : list key) (m1 m2 : list (list f64)),
  wf h d1 /\ wf h d2 /\ num_keys (abs h d1) ["a"; "b"; "c"] = Some ks /\ num_keys (abs h d2) ["a"; "b"; "c"] = Some ks /\
  run_dense (new_dense ["a"; "b"; "c"]) [d1; d2] h = Ok ([m1; m2], h) /\
  m2 !! 11 = Some [f64_one; f64_one; f64_zero] /\
  t_num_rows f64_of_val (abs h d2) ks !! 11 = Some [f64_one; f64_one; f64_one].
Proof. exact C28_longer_dataframe_refuted_main. Qed.
Print Assumptions C28_longer_dataframe_refuted.
Theorem C28_longer_dataframe_panics_refuted : exists (rt : GoRT) (h : heap) (d1 d2 : dframe) (ks : list key),
  wf h d1 /\ wf h d2 /\ num_keys (abs h d1) ["a"; "b"; "c"] = Some ks /\ num_keys (abs h d2) ["a"; "b"; "c"] = Some ks /\
  run_dense (new_dense ["a"; "b"; "c"]) [d1; d2] h = Panic.
Proof. exact C28_longer_dataframe_panics_refuted_main. Qed.
Print Assumptions C28_longer_dataframe_panics_refuted.
Theorem C28_missing_column_refuted : exists (rt : GoRT) (h : heap) (d1 d2 : dframe) (m1 m2 : list (list f64)),
  wf h d1 /\ wf h d2 /\ (forall k, t_cols (abs h d2) !! (k, "b") = None) /\
  run_dense (new_dense ["a"; "b"]) [d1; d2] h = Ok ([m1; m2], h) /\ m2 = [[f64_zero; f64_one]; [f64_zero; f64_one]].
Proof. exact C28_missing_column_refuted_main. Qed.
Print Assumptions C28_missing_column_refuted.

(** C69 the constructor of iterators accepts exactly the lists of float, boolean
    and integer columns. *)
Theorem C69_accepted_columns : forall (h : heap) (d : dframe) (cols : list string), wf h d ->
  (exists it, new_iterator d cols h = Ok (it, h)) <->
  Forall (fun c => exists k, k <> KObj /\ is_Some (t_cols (abs h d) !! (k, c))) cols.
Proof. exact C69_accepted_columns_main. Qed.
Print Assumptions C69_accepted_columns.
Theorem C69_object_columns_refuted : exists (rt : GoRT) (h : heap) (d : dframe),
  wf h d /\ is_Some (t_cols (abs h d) !! (KObj, "s")) /\ is_Some (t_cols (abs h d) !! (KInt, "a")) /\
  new_iterator d ["a"; "s"] h = Panic.
Proof. exact C69_object_columns_refuted_main. Qed.
Print Assumptions C69_object_columns_refuted.
