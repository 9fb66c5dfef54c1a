(** Proofs of the theorems about row iterators and DenseMatrix. *)
From Verif Require Export P_ReadMain P_Batch2.

(** A sequence of NextRow calls, [es] telling how many there are and what the
    caller writes into the row after each of them. *)
Lemma C27_iterator_main : forall (rt : GoRT) (h : heap) (d : dframe) (cols : list string) (es : list (option (list f64))),
  wf h d ->
  match new_iterator d cols h with
  | Ok (it, h1) => h1 = h /\ exists ks it', num_keys (abs h d) cols = Some ks /\
      iterate it es h = Ok ((nth_row h d ks <$> seq 0 (length es), it'), h) /\
      (* Reset: the same again, on another dataframe with these columns *)
      forall (d2 : dframe) (check : bool) (es2 : list (option (list f64))), wf h d2 ->
        match it_reset it' d2 check h with
        | Ok (it2, h2) => h2 = h /\
            (Forall (fun k => is_Some (t_cols (abs h d2) !! k)) ks ->
               exists it3, iterate it2 es2 h = Ok ((nth_row h d2 ks <$> seq 0 (length es2), it3), h)) /\
            (check = true -> Forall (fun k => is_Some (t_cols (abs h d2) !! k)) ks)
        | Panic => check = true /\ ~ Forall (fun k => is_Some (t_cols (abs h d2) !! k)) ks
        end
  | Panic => num_keys (abs h d) cols = None
  end.
Proof.
  intros rt h d cols es W. pose proof (new_iterator_spec h d cols) as H.
  destruct (new_iterator d cols h) as [[it h1]|]; [|done]. destruct H as (-> & ks & Hk & I). split; [done|].
  destruct (num_keys_spec _ _ _ Hk) as (_ & _ & Fk).
  destruct (iterate_spec h d ks W Fk es 0 it I) as (it' & E & n' & I').
  exists ks, it'. split; [done|]. split; [done|]. intros d2 check es2 W2.
  pose proof (it_reset_spec h d d2 ks n' it' check I') as R. destruct (it_reset it' d2 check h) as [[it2 h2]|]; [|done].
  destruct R as (-> & I2 & Hc). split; [done|]. split; [|done]. intros F2.
  destruct (iterate_spec h d2 ks W2 F2 es2 0 it2 I2) as (it3 & E3 & _). by exists it3.
Qed.
(** What the calls deliver, read off [nth_row]: row number n of the view, its
    number and its position in the storage, then nil and the sizes. *)
Lemma C27_rows_main : forall (h : heap) (d : dframe) (ks : list key) (n : nat), wf h d ->
  (n < num_rows d -> exists i, inds d !! n = Some i /\ nth_row h d ks n =
     (Some ((fun k => f32_of_val (default (VInt 0) (default [] (t_cols (abs h d) !! k) !! n))) <$> ks), n, i)) /\
  (num_rows d <= n -> nth_row h d ks n = (None, num_rows d, num_alloc_rows (mp h (r_maps (d_raw d))))).
Proof.
  intros h d ks n [m W]. pose proof (wfn_inds_length _ _ _ W) as Hl. unfold nth_row. split.
  - intros Hn. destruct (lookup_lt_is_Some_2 (inds d) n) as [i Hi]; [lia|]. exists i. by rewrite Hi.
  - intros Hn. by rewrite (proj2 (lookup_ge_None _ _)) by lia.
Qed.

(** ** C28 *)
Lemma C28_first_matrix_main : forall (rt : GoRT) (h : heap) (d : dframe) (cols : list string), wf h d ->
  match dense_matrix (new_dense cols) d h with
  | Ok ((rows, db), h') => h' = h /\ exists ks, num_keys (abs h d) cols = Some ks /\
      rows = t_num_rows f64_of_val (abs h d) ks /\ 0 < num_rows d /\ cols <> []
  | Panic => num_keys (abs h d) cols = None \/ num_rows d = 0 \/ cols = []
  end.
Proof.
  intros rt h d cols W. pose proof (dense_first h d cols W) as H.
  destruct (num_keys (abs h d) cols) as [ks|] eqn:Hk; [|rewrite H; by left].
  destruct (num_keys_spec _ _ _ Hk) as (Hc & _). apply (f_equal length) in Hc. rewrite fmap_length in Hc.
  case_decide as H0.
  - rewrite H. right. destruct H0 as [?|H0]; [by left|right]. destruct cols; [done|simpl in Hc; lia].
  - destruct H as (db & -> & _). split; [done|]. exists ks. do 2 (split; [done|]). split; [lia|]. intros ->. simpl in Hc. lia.
Qed.
Lemma C28_later_matrices_partial_main : forall (rt : GoRT) (h : heap) (cols : list string) (d0 : dframe) (ds : list dframe) (ks : list key),
  wf h d0 -> 0 < num_rows d0 -> cols <> [] -> num_keys (abs h d0) cols = Some ks ->
  Forall (fun d => wf h d /\ 0 < num_rows d /\ Forall (fun k => is_Some (t_cols (abs h d) !! k)) ks /\
    (* no dataframe is longer than the first one, unless there is a single column *)
    (num_rows d <= num_rows d0 \/ length cols = 1)) ds ->
  run_dense (new_dense cols) (d0 :: ds) h = Ok ((fun d => t_num_rows f64_of_val (abs h d) ks) <$> d0 :: ds, h).
Proof.
  intros rt h cols d0 ds ks W Hn Hc Hk F.
  destruct (num_keys_spec _ _ _ Hk) as (Hkc & _). apply (f_equal length) in Hkc. rewrite fmap_length in Hkc.
  assert (Hks : ks <> []). { intros ->. destruct cols; [done|]. simpl in Hkc. lia. }
  assert (0 < length ks) by (destruct ks; [done|simpl; lia]).
  cbn [run_dense]. pose proof (dense_first h d0 cols W) as H1. rewrite Hk, decide_False in H1 by lia.
  destruct H1 as (db & E & D & Hl). rewrite (bind_eq _ _ _ _ _ E).
  rewrite (bind_eq _ _ _ _ _ (run_dense_spec h ks (num_rows d0) Hks ds db D ltac:(cbn [snd]; lia) ltac:(by rewrite Hkc))). done.
Qed.

(** 33 float64s are rounded up to the 288 bytes size class of Go's allocator, a
    capacity of 36. *)
Definition cap_rt : GoRT :=
  Build_GoRT 4 ltac:(lia) (fun _ n => if decide (n = 33) then 36 else n) ltac:(intros c n; simpl; case_decide; lia).
Section wit.
Existing Instance ex_rt.
Definition ones n := replicate n (VFloat f64_one).
Definition c28_cols n := [(KFloat, "a", ones n); (KFloat, "b", ones n); (KFloat, "c", ones n)].
Definition c28_d1 := (mk_df heap0 (c28_cols 11) []).1.
Definition c28_h1 := (mk_df heap0 (c28_cols 11) []).2.
Definition c28_d2 := (mk_df c28_h1 (c28_cols 12) []).1.
Definition c28_h := (mk_df c28_h1 (c28_cols 12) []).2.
Definition c28_e1 := (mk_df heap0 [(KFloat, "a", ones 2); (KFloat, "b", ones 2)] []).1.
Definition c28_eh1 := (mk_df heap0 [(KFloat, "a", ones 2); (KFloat, "b", ones 2)] []).2.
Definition c28_e2 := (mk_df c28_eh1 [(KFloat, "a", [VFloat f64_zero; VFloat f64_zero])] []).1.
Definition c28_eh := (mk_df c28_eh1 [(KFloat, "a", [VFloat f64_zero; VFloat f64_zero])] []).2.
Definition run_mats {rt : GoRT} cols ds h : list (list (list f64)) :=
  match run_dense (new_dense cols) ds h with Ok p => p.1 | Panic => [] end.
End wit.
(** The growth test counts rows instead of cells: the second, longer dataframe
    does not fit and its last rows are silently lost. *)
Lemma C28_longer_dataframe_refuted_main : exists (rt : GoRT) (h : heap) (d1 d2 : dframe) (ks : list key) (m1 m2 : list (list f64)),
  wf h d1 /\ wf h d2 /\ num_keys (abs h d1) ["a"; "b"; "c"] = Some ks /\ num_keys (abs h d2) ["a"; "b"; "c"] = Some ks /\
  run_dense (new_dense ["a"; "b"; "c"]) [d1; d2] h = Ok ([m1; m2], h) /\
  m2 !! 11 = Some [f64_one; f64_one; f64_zero] /\
  t_num_rows f64_of_val (abs h d2) ks !! 11 = Some [f64_one; f64_one; f64_one].
Proof.
  exists cap_rt, c28_h, c28_d1, c28_d2, [(KFloat, "a"); (KFloat, "b"); (KFloat, "c")].
  set (ms := run_mats (rt := cap_rt) ["a"; "b"; "c"] [c28_d1; c28_d2] c28_h).
  exists (default [] (ms !! 0)), (default [] (ms !! 1)).
  split; [apply (wf_check_sound _ _ 11); by vm_compute|]. split; [apply (wf_check_sound _ _ 12); by vm_compute|].
  do 2 (split; [by vm_compute|]). split; [by vm_compute|]. split; by vm_compute.
Qed.
(** It panics if the spare capacity does not suffice. *)
Lemma C28_longer_dataframe_panics_refuted_main : exists (rt : GoRT) (h : heap) (d1 d2 : dframe) (ks : list key),
  wf h d1 /\ wf h d2 /\ num_keys (abs h d1) ["a"; "b"; "c"] = Some ks /\ num_keys (abs h d2) ["a"; "b"; "c"] = Some ks /\
  run_dense (new_dense ["a"; "b"; "c"]) [d1; d2] h = Panic.
Proof.
  exists ex_rt, c28_h, c28_d1, c28_d2, [(KFloat, "a"); (KFloat, "b"); (KFloat, "c")].
  split; [apply (wf_check_sound _ _ 11); by vm_compute|]. split; [apply (wf_check_sound _ _ 12); by vm_compute|].
  do 2 (split; [by vm_compute|]). by vm_compute.
Qed.
(** A dataframe without one of the float columns: the values of the previous
    dataframe are returned. *)
Lemma C28_missing_column_refuted_main : exists (rt : GoRT) (h : heap) (d1 d2 : dframe) (m1 m2 : list (list f64)),
  wf h d1 /\ wf h d2 /\ (forall k, t_cols (abs h d2) !! (k, "b") = None) /\
  run_dense (new_dense ["a"; "b"]) [d1; d2] h = Ok ([m1; m2], h) /\ m2 = [[f64_zero; f64_one]; [f64_zero; f64_one]].
Proof.
  exists ex_rt, c28_eh, c28_e1, c28_e2.
  set (ms := run_mats (rt := ex_rt) ["a"; "b"] [c28_e1; c28_e2] c28_eh).
  exists (default [] (ms !! 0)), (default [] (ms !! 1)).
  split; [apply (wf_check_sound _ _ 2); by vm_compute|]. split; [apply (wf_check_sound _ _ 2); by vm_compute|].
  split; [intros []; by vm_compute|]. split; by vm_compute.
Qed.

(** ** C69 *)
Lemma C69_object_columns_refuted_main : exists (rt : GoRT) (h : heap) (d : dframe),
  wf h d /\ is_Some (t_cols (abs h d) !! (KObj, "s")) /\ is_Some (t_cols (abs h d) !! (KInt, "a")) /\
  new_iterator d ["a"; "s"] h = Panic.
Proof.
  exists ex_rt, ex_h, ex_d. split; [exact ex_wf|].
  split; [apply (bool_decide_unpack _); by vm_compute|]. split; [apply (bool_decide_unpack _); by vm_compute|]. by vm_compute.
Qed.
Lemma C69_accepted_columns_main : forall (h : heap) (d : dframe) (cols : list string), wf h d ->
  (exists it, new_iterator d cols h = Ok (it, h)) <->
  Forall (fun c => exists k, k <> KObj /\ is_Some (t_cols (abs h d) !! (k, c))) cols.
Proof.
  intros h d cols W. pose proof (new_iterator_spec h d cols) as H.
  assert (Hkeys : is_Some (num_keys (abs h d) cols) <-> Forall (fun c => exists k, k <> KObj /\ is_Some (t_cols (abs h d) !! (k, c))) cols).
  { unfold num_keys. rewrite mapM_is_Some. apply Forall_iff. intros c. unfold num_key, compose. split.
    - destruct (decide (is_Some (t_cols (abs h d) !! (KFloat, c)))); [by exists KFloat|].
      destruct (decide (is_Some (t_cols (abs h d) !! (KBool, c)))); [by exists KBool|].
      destruct (decide (is_Some (t_cols (abs h d) !! (KInt, c)))); [by exists KInt|]. by intros [? ?].
    - intros (k & Hk & Hs). destruct (decide (is_Some (t_cols (abs h d) !! (KFloat, c)))); [by eexists|].
      destruct (decide (is_Some (t_cols (abs h d) !! (KBool, c)))); [by eexists|].
      destruct (decide (is_Some (t_cols (abs h d) !! (KInt, c)))); [by eexists|]. by destruct k. }
  rewrite <- Hkeys. destruct (new_iterator d cols h) as [[it h']|].
  - destruct H as (-> & ks & -> & _). split; eauto.
  - rewrite H. split; [by intros [? ?]|by intros [? ?]].
Qed.
