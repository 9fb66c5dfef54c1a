(** Proofs of the theorems about histories. *)
From Verif Require Export P_World.

(** What users rely on in every live dataframe. *)
Definition consistent {rt : GoRT} (h : heap) (d : dframe) : Prop :=
  (* all columns have the same allocated length, the row indices are below it *)
  (exists n, (forall k s, mp h (r_maps (d_raw d)) !! k = Some s -> s_len s = n) /\
     Forall (fun i => i < n) (inds d)) /\
  length (inds d) = num_rows d /\
  (* Get and Set work on every row of every column and Get returns a value of
     the type of the column *)
  (forall k c row s, mp h (r_maps (d_raw d)) !! (k, c) = Some s -> (0 <= row < Z.of_nat (num_rows d))%Z ->
     (exists v, get_cell k d c row h = Ok (v, h) /\ kind_of v = k) /\
     (forall v, kind_of v = k -> exists h', set_cell k d c row v h = Ok (tt, h'))) /\
  (* all stored values have the type of the column *)
  (forall k c s, mp h (r_maps (d_raw d)) !! (k, c) = Some s -> Forall (fun v => kind_of v = k) (sl_vals h s)) /\
  (* the mask is large enough *)
  (exists s h', zero_mask d h = Ok (s, h') /\ msl_vals h' s = replicate (num_rows d) false).

Lemma wf_consistent {rt : GoRT} h d : wf h d -> consistent h d.
Proof.
  intros W. pose proof W as [n Wn]. split; [|split; [|split; [|split]]].
  - exists n. split; [|by eapply wf_rng]. intros k s Hk. by destruct (wfn_col _ _ _ _ _ Wn Hk) as (_ & ? & _).
  - by eapply wfn_inds_length.
  - intros k c row s Hk Hr.
    assert (Hc : t_cols (abs h d) !! (k, c) = Some (pick (inds d) (sl_vals h s))).
    { by rewrite abs_cols_lookup, Hk. }
    split.
    + destruct (abs_ok h d W (k, c) _ Hc) as [Hl Hk2].
      destruct (lookup_lt_is_Some_2 (pick (inds d) (sl_vals h s)) (Z.to_nat row)) as [v Hv].
      { rewrite Hl. unfold abs. simpl. lia. }
      exists v. split.
      * rewrite get_cell_spec by (done || lia). unfold t_cell. rewrite Hc. simpl. by rewrite Hv.
      * rewrite Forall_forall in Hk2. apply Hk2. by eapply elem_of_list_lookup_2.
    + intros v Hv. pose proof (set_cell_spec h d k c row v W Hv) as H.
      destruct (set_cell k d c row v h) as [[[] h']|]; [eauto|]. destruct H as [?|H]; [lia|]. by rewrite Hc in H.
  - intros k c s Hk. destruct (wfn_col _ _ _ _ _ Wn Hk) as (Ho & _). by apply (col_ok_vals_kind _ _ _ Ho).
  - destruct (zero_mask_spec h d W) as (s & h' & ? & _ & _ & _ & _ & ?). eauto.
Qed.

Lemma C20_history_partial_main : forall (rt : GoRT) (h : heap) (os : list op) (h' : heap) (ds : list dframe),
  hist h [] os h' ds -> Forall (fun d => wf h' d /\ consistent h' d) ds.
Proof.
  intros rt h os h' ds H. pose proof (hist_wf _ _ _ _ _ H ltac:(constructor)) as F.
  eapply Forall_impl; [exact F|]. intros d W. split; [done|by apply wf_consistent].
Qed.
(** Also from any consistent state; the operation changes nothing that makes
    another dataframe inconsistent. *)
Lemma C20_step_main : forall (rt : GoRT) (h : heap) (ds : list dframe) (o : op) (h' : heap) (ds' : list dframe),
  Forall (wf h) ds -> op_guard h ds o -> step ds o h = Ok (ds', h') ->
  Forall (wf h') ds' /\ forall d, wf h d -> wf h' d.
Proof. intros rt h ds o h' ds' F G E. by apply (step_wf h ds o). Qed.

(** The same operations without the guards. *)
Fixpoint run_ops {rt : GoRT} (ds : list dframe) (os : list op) : M (list dframe) :=
  match os with [] => ret ds | o :: os => let* ds := step ds o in run_ops ds os end.
Definition run_world {rt : GoRT} (os : list op) : list dframe * heap :=
  match run_ops [] os heap0 with Ok p => p | Panic => ([], heap0) end.
(** Row [row] of column [c] cannot be read though the column and the row exist. *)
Definition broken {rt : GoRT} (os : list op) (i : nat) (k : kind) (c : string) (row : Z) : Prop :=
  exists h ds d, run_ops [] os heap0 = Ok (ds, h) /\ ds !! i = Some d /\
    (0 <= row < Z.of_nat (num_rows d))%Z /\ is_Some (mp h (r_maps (d_raw d)) !! (k, c)) /\
    get_cell k d c row h = Panic.

Definition w_build : op := OBuild [BAdd KInt "a" (VInt <$> [5; 3; 9; 1; 7; 8; 2; 4; 6; 0; 11; 12; 13; 14; 15]%Z)].
Definition w_slice : list op := [w_build; OSlice 0 0 11; OSlice 1 8 12].
Definition w_empty : list op := [OEmpty 3 1; OAlloc 0 KInt ["a"]].
Definition w_ints : list op := [w_build; OInts 0 ["zz"]].
Definition w_cat : list op := [w_build; OBuild [BAdd KInt "b" [VInt 1]]; OConcatView 0 [1]].
Definition w_dfs (os : list op) : list dframe := (run_world (rt := ex_rt) os).1.
Definition w_heap (os : list op) : heap := (run_world (rt := ex_rt) os).2.

Ltac broken os i :=
  exists (w_heap os), (w_dfs os);
  eexists (default dummy (w_dfs os !! i)); split; [by vm_compute|]; split; [by vm_compute|];
  split; [split; by vm_compute|]; split; [apply (bool_decide_unpack _); by vm_compute|by vm_compute].
Lemma C20_unguarded_refuted_main :
  (* SliceView beyond NumRows *)
  broken (rt := ex_rt) w_slice 2 KInt "a" 3 /\
  (* a column allocated in EmptyDataFrame *)
  broken (rt := ex_rt) w_empty 0 KInt "a" 0 /\
  (* IntToFloats with an unknown column *)
  broken (rt := ex_rt) w_ints 0 KFloat "zz" 0 /\
  (* ColumnConcatView of different numbers of rows *)
  broken (rt := ex_rt) w_cat 2 KInt "b" 1.
Proof.
  split; [broken w_slice 2|]. split; [broken w_empty 0|]. split; [broken w_ints 0|broken w_cat 2].
Qed.

Lemma C21_are_indices_altered_main : forall (rt : GoRT) (h : heap) (os : list op) (h' : heap) (ds : list dframe),
  hist h [] os h' ds -> forall d, d ∈ ds -> d_viewed d = false ->
  inds d = seq 0 (num_rows d) /\
  forall k s, mp h' (r_maps (d_raw d)) !! k = Some s -> s_len s = num_rows d.
Proof.
  intros rt h os h' ds H d Hd Hv. pose proof (hist_wf _ _ _ _ _ H ltac:(constructor)) as F.
  rewrite Forall_forall in F. destruct (F d Hd) as [n W]. destruct (wf_cont _ _ _ W Hv) as [? Hn].
  split; [done|]. intros k s Hk. destruct (wfn_col _ _ _ _ _ W Hk) as (_ & ? & _). lia.
Qed.

(** A history that uses most of the operations. *)
Definition c20_os : list op :=
  [OBuild [BAdd KInt "a" [VInt 5; VInt 3; VInt 9; VInt 1]; BAddStrings "s" ["x"; "y"; "x"; "z"]];
   OIndex 0 [2; 0; 2]%Z; OSlice 0 1 3; OReverse 1; ORename 0 "a" "b"; OCopy 3;
   OWrites 1 [((KInt, "b"), 0%Z, VInt 70)]; OOverwrite 2 KInt false "n" [VInt 1; VInt 2];
   ODrop 0 ["s"]; OAlloc 0 KFloat ["f"]; ORowConcat 4 [4]; OShallow 5; OUnshare 6 ["a"]; OZeroMask 6;
   OSplit 5 4].
Fixpoint guardsb {rt : GoRT} (ds : list dframe) (os : list op) (h : heap) (ok : heap -> list dframe -> op -> bool) : bool :=
  match os with
  | [] => true
  | o :: os => ok h ds o && match step ds o h with Ok (ds, h) => guardsb ds os h ok | Panic => false end
  end.
Definition guardb (h : heap) (ds : list dframe) (o : op) : bool :=
  let on i (P : table -> bool) := match ds !! i with Some d => P (abs h d) | None => true end in
  match o with
  | OBuild os => forallb (fun o => match o with
       | BAdd k _ vs => bool_decide (Forall (fun v => kind_of v = k) vs) | BAddStrings _ _ => true | _ => false end) os
  | OSlice i from to => on i (fun t => bool_decide (0 <= from <= Z.of_nat (t_rows t))%Z &&
                                     bool_decide (0 <= to <= Z.of_nat (t_rows t))%Z)
  | OWrites _ ws => bool_decide (Forall (fun w : write_op => kind_of w.2 = w.1.1.1) ws)
  | OOverwrite i k strs c vs => bool_decide (Forall (fun v => kind_of v = k) vs) && negb strs &&
      on i (fun t => bool_decide (t_cols t <> ∅))
  | ORename _ old new => bool_decide (old <> new)
  | OAlloc i _ _ => on i (fun t => bool_decide (t_cols t <> ∅))
  | OIndex _ _ | OReverse _ | OCopy _ | ODrop _ _ | ORowConcat _ _ | OShallow _ | OUnshare _ _ | OZeroMask _ | OSplit _ _ => true
  | _ => false
  end.
Lemma guardb_sound h ds o : guardb h ds o = true -> op_guard h ds o.
Proof.
  destruct o; try done; cbn [guardb op_guard].
  - rewrite forallb_forall. intros H. apply Forall_forall. intros o Ho%elem_of_list_In.
    specialize (H o Ho). destruct o; try done. by apply bool_decide_eq_true in H.
  - intros H d Hd. rewrite Hd in H. apply andb_true_iff in H as [H1%bool_decide_eq_true H2%bool_decide_eq_true].
    simpl. rewrite !decide_False by lia. done.
  - intros H%bool_decide_eq_true. done.
  - intros [[H1%bool_decide_eq_true H2]%andb_true_iff H3]%andb_true_iff. split; [done|].
    split; [by destruct strs|]. intros d Hd. rewrite Hd in H3. by apply bool_decide_eq_true in H3.
  - intros H%bool_decide_eq_true. done.
  - intros H d Hd. rewrite Hd in H. by apply bool_decide_eq_true in H.
Qed.
Lemma guardsb_hist {rt : GoRT} os : forall ds h ds' h', guardsb ds os h guardb = true ->
  run_ops ds os h = Ok (ds', h') -> hist h ds os h' ds'.
Proof.
  induction os as [|o os IH]; intros ds h ds' h' G E.
  - apply ret_ok in E as [<- <-]. constructor.
  - cbn [run_ops] in E. apply bind_ok in E as (ds1 & h1 & E1 & E2).
    cbn [guardsb] in G. apply andb_true_iff in G as [G1 G2]. rewrite E1 in G2.
    eapply hist_cons; [by apply guardb_sound|done|by apply IH].
Qed.
