(** Histories: a list of live dataframes over one heap, and every operation on
    them. *)
From Verif Require Export P_ViewMain.
From Verif Require Export P_Asort P_ReadMain.

(** Operations; dataframes are named by their position. *)
Inductive op :=
| OBuild (os : list bop)
| OMergeRows (is : list nat)
| OEmpty (n cpu : Z)
| OView (i : nat) | OReverse (i : nat) | OReset (i : nat)
| OIndex (i : nat) (l : list Z)
| OSlice (i : nat) (from to : Z)
| OMask (i : nat) (mask : list bool)
| OColumns (i : nat) (cols : list string)
| OShuffle (i : nat) (rnd : nat -> nat)
| OSample (i : nat) (rnd : nat -> nat) (n : Z) (repl : bool)
| OSplit (i : nat) (b : Z)
| OSplitN (i : nat) (n : Z)
| OTrainTest (i : nat) (r : f64)
| OSorted (i : nat) (asort : list f64 -> list nat) (c : string)
| OTop (i : nat) (asort : list f64 -> list nat) (c : string) (n : Z) (asc sorted : bool)
| ODetached (i : nat) (cols : list string)
| OCopy (i : nat) | OShallow (i : nat)
| OHash (i : nat) (cols : list string)
| OWrites (i : nat) (ws : list write_op)
| OOverwrite (i : nat) (k : kind) (strs : bool) (c : string) (vs : list val)
| ORename (i : nat) (old new : string)
| ODrop (i : nat) (cols : list string)
| OAlloc (i : nat) (k : kind) (cols : list string)
| OAllocStrings (i : nat) (cols : list string)
| OInts (i : nat) (cols : list string)
| OBools (i : nat) (cols : list string)
| OUnshare (i : nat) (cols : list string)
| OZeroMask (i : nat) | OEmptyMask (i : nat)
| OThreadSafe (i : nat) (b : bool)
| OSetCPU (i : nat) (n : Z)
| ORowConcat (i : nat) (is : list nat)
| OConcatView (i : nat) (is : list nat)
| OCopyConcat (i : nat) (is : list nat).

Section frame.
Context {rt : GoRT}.

(** New dataframes are appended to the list; operations in place replace the
    dataframe. *)
Definition with_df (ds : list dframe) (i : nat) (f : dframe -> M (list dframe)) : M (list dframe) :=
  match ds !! i with Some d => f d | None => panic end.
Definition with_dfs (ds : list dframe) (is : list nat) (f : list dframe -> M (list dframe)) : M (list dframe) :=
  match mapM (fun i => ds !! i) is with Some l => f l | None => panic end.
Definition add1 (ds : list dframe) (m : M dframe) : M (list dframe) := let* v := m in ret (ds ++ [v]).
Definition adds (ds : list dframe) (m : M (list dframe)) : M (list dframe) := let* vs := m in ret (ds ++ vs).
Definition addo (ds : list dframe) (m : M (option dframe)) : M (list dframe) :=
  let* o := m in ret (match o with Some v => ds ++ [v] | None => ds end).
Definition repl (ds : list dframe) (i : nat) (m : M dframe) : M (list dframe) := let* v := m in ret (<[i := v]> ds).
Definition keep {A} (ds : list dframe) (m : M A) : M (list dframe) := m ;;* ret ds.

Definition step (ds : list dframe) (o : op) : M (list dframe) :=
  match o with
  | OBuild os => add1 ds (let* r := new_raw in let* r := run_bops r os in to_dataframe r)
  | OMergeRows is => with_dfs ds is (fun l => add1 ds (let* r := merge_raw_rows (d_raw <$> l) in to_dataframe r))
  | OEmpty n cpu => add1 ds (empty_df n cpu)
  | OView i => with_df ds i (fun d => add1 ds (ret (view d)))
  | OReverse i => with_df ds i (fun d => add1 ds (ret (reverse_view d)))
  | OReset i => with_df ds i (fun d => add1 ds (ret (reset_index_view d)))
  | OIndex i l => with_df ds i (fun d => add1 ds (index_view d l))
  | OSlice i from to => with_df ds i (fun d => add1 ds (slice_view d from to))
  | OMask i mask => with_df ds i (fun d => add1 ds (mask_view d mask))
  | OColumns i cols => with_df ds i (fun d => add1 ds (column_view d cols))
  | OShuffle i rnd => with_df ds i (fun d => add1 ds (shuffle_view rnd d))
  | OSample i rnd n rp => with_df ds i (fun d => add1 ds (sample_view rnd d n rp))
  | OSplit i b => with_df ds i (fun d => adds ds (split_view d b))
  | OSplitN i n => with_df ds i (fun d => adds ds (split_n_view d n))
  | OTrainTest i r => with_df ds i (fun d => adds ds (let* p := split_train_test d r in ret [p.1; p.2]))
  | OSorted i asort c => with_df ds i (fun d => add1 ds (sorted_view asort d c))
  | OTop i asort c n asc sorted => with_df ds i (fun d => add1 ds (top_view asort d c n asc sorted))
  | ODetached i cols => with_df ds i (fun d => add1 ds (detached_view d cols))
  | OCopy i => with_df ds i (fun d => add1 ds (copy_df d))
  | OShallow i => with_df ds i (fun d => add1 ds (shallow_copy d))
  | OHash i cols => with_df ds i (fun d => add1 ds (hash_strings_view d cols))
  | OWrites i ws => with_df ds i (fun d => keep ds (do_writes d ws))
  | OOverwrite i k strs c vs => with_df ds i (fun d => repl ds i (overwrite k strs d c vs))
  | ORename i old new => with_df ds i (fun d => repl ds i (on_raw d (fun r => rename r old new)))
  | ODrop i cols => with_df ds i (fun d => keep ds (drop_cols (d_raw d) cols))
  | OAlloc i k cols => with_df ds i (fun d => repl ds i (on_raw d (fun r => alloc_cols k r cols)))
  | OAllocStrings i cols => with_df ds i (fun d => repl ds i (on_raw d (fun r => alloc_strings r cols)))
  | OInts i cols => with_df ds i (fun d => repl ds i (on_raw d (fun r => int_to_floats r cols)))
  | OBools i cols => with_df ds i (fun d => repl ds i (on_raw d (fun r => bool_to_floats r cols)))
  | OUnshare i cols => with_df ds i (fun d => repl ds i (on_raw d (fun r => unshare r cols)))
  | OZeroMask i => with_df ds i (fun d => keep ds (zero_mask d))
  | OEmptyMask i => with_df ds i (fun d => keep ds (empty_mask d))
  | OThreadSafe i b => with_df ds i (fun d => repl ds i (ret (thread_safe_masking d b)))
  | OSetCPU i n => with_df ds i (fun d => repl ds i (ret (set_raw d (set_max_cpu (d_raw d) n))))
  | ORowConcat i is => with_df ds i (fun d => with_dfs ds is (fun l => addo ds (row_concat (d :: l))))
  | OConcatView i is => with_df ds i (fun d => with_dfs ds is (fun l => addo ds (column_concat_view (d :: l))))
  | OCopyConcat i is => with_df ds i (fun d => with_dfs ds is (fun l => addo ds (column_copy_concat (d :: l))))
  end.

(** What the caller must respect. [t] is the table of the dataframe operated
    on. Everything excluded here is refuted, see Prop_World and the theorems
    cited there. *)
Definition op_guard (h : heap) (ds : list dframe) (o : op) : Prop :=
  let on i (P : table -> Prop) := forall d, ds !! i = Some d -> P (abs h d) in
  match o with
  | OBuild os => Forall bop_typed os
  | OEmpty n _ => (0 <= n)%Z
  | OSlice i from to => on i (fun t =>
      let b z := if decide (z < 0)%Z then (z + (Z.of_nat (t_rows t) + 1))%Z else z in
      (0 <= b from <= Z.of_nat (t_rows t))%Z /\ (0 <= b to <= Z.of_nat (t_rows t))%Z)
  | OSplitN i n => on i (fun t => 0 < t_rows t \/ (n <= 1)%Z)
  | OTrainTest i r => valid_binary 53 1024 r = true /\ f64_isnan r = false /\
      on i (fun t => (Z.of_nat (t_rows t) <= 2 ^ 53)%Z)
  | OSorted _ asort _ => asort_ok asort
  | OTop _ asort _ _ _ _ => asort_ok asort
  | OHash i cols => on i (fun t => cols <> [] ->
      (forall c, c ∈ cols -> is_Some (t_cols t !! (KObj, c))) /\
      (exists k, is_Some (t_cols t !! k) /\ k.2 ∉ cols))
  | OWrites _ ws => writes_typed ws
  | OOverwrite i k strs c vs => Forall (fun v => kind_of v = k) vs /\ (strs = true -> k = KObj) /\
      on i (fun t => t_cols t <> ∅)
  | ORename _ old new => old <> new
  | OAlloc i _ _ => on i (fun t => t_cols t <> ∅)
  | OAllocStrings i _ => on i (fun t => t_cols t <> ∅)
  | OInts i cols => NoDup cols /\ on i (fun t => forall c, c ∈ cols -> is_Some (t_cols t !! (KInt, c)))
  | OBools i cols => NoDup cols /\ on i (fun t => forall c, c ∈ cols -> is_Some (t_cols t !! (KBool, c)))
  | OConcatView i is => forall d, ds !! i = Some d -> exists n, wfn h d n /\
      Forall (fun j => forall d2, ds !! j = Some d2 -> wfn h d2 n /\ inds d2 = inds d) is
  | _ => True
  end.

Inductive hist : heap -> list dframe -> list op -> heap -> list dframe -> Prop :=
| hist_nil h ds : hist h ds [] h ds
| hist_cons h ds o h1 ds1 os h2 ds2 : op_guard h ds o -> step ds o h = Ok (ds1, h1) ->
    hist h1 ds1 os h2 ds2 -> hist h ds (o :: os) h2 ds2.

Lemma with_df_ok ds i f h ds' h' : with_df ds i f h = Ok (ds', h') ->
  exists d, ds !! i = Some d /\ f d h = Ok (ds', h').
Proof. unfold with_df. destruct (ds !! i); [eauto|done]. Qed.
Lemma with_dfs_ok ds is f h ds' h' : with_dfs ds is f h = Ok (ds', h') ->
  exists l, Forall2 (fun i d => ds !! i = Some d) is l /\ f l h = Ok (ds', h').
Proof.
  unfold with_dfs. destruct (mapM (fun i => ds !! i) is) as [l|] eqn:E; [|done].
  intros H. exists l. split; [|done]. by apply mapM_Some in E.
Qed.
Lemma add1_ok ds m h ds' h' : add1 ds m h = Ok (ds', h') -> exists v, m h = Ok (v, h') /\ ds' = ds ++ [v].
Proof. unfold add1. intros (v & h1 & E & [<- <-]%ret_ok)%bind_ok. eauto. Qed.
Lemma adds_ok ds m h ds' h' : adds ds m h = Ok (ds', h') -> exists vs, m h = Ok (vs, h') /\ ds' = ds ++ vs.
Proof. unfold adds. intros (v & h1 & E & [<- <-]%ret_ok)%bind_ok. eauto. Qed.
Lemma addo_ok ds m h ds' h' : addo ds m h = Ok (ds', h') ->
  exists o, m h = Ok (o, h') /\ ds' = match o with Some v => ds ++ [v] | None => ds end.
Proof. unfold addo. intros (v & h1 & E & [<- <-]%ret_ok)%bind_ok. eauto. Qed.
Lemma repl_ok ds i m h ds' h' : repl ds i m h = Ok (ds', h') -> exists v, m h = Ok (v, h') /\ ds' = <[i := v]> ds.
Proof. unfold repl. intros (v & h1 & E & [<- <-]%ret_ok)%bind_ok. eauto. Qed.
Lemma keep_ok {A} ds (m : M A) h ds' h' : keep ds m h = Ok (ds', h') -> exists a, m h = Ok (a, h') /\ ds' = ds.
Proof. unfold keep. intros (v & h1 & E & [<- <-]%ret_ok)%bind_ok. eauto. Qed.

Lemma all_stable h h' ds : stable h h' -> Forall (wf h) ds -> Forall (wf h') ds.
Proof. intros S F. eapply Forall_impl; [exact F|]. intros d. apply S. Qed.
Lemma all_add h h' ds v : stable h h' -> Forall (wf h) ds -> wf h' v -> Forall (wf h') (ds ++ [v]).
Proof. intros S F W. apply Forall_app. split; [by eapply all_stable|]. by constructor. Qed.
Lemma all_repl h h' ds i v : stable h h' -> Forall (wf h) ds -> wf h' v -> Forall (wf h') (<[i := v]> ds).
Proof. intros S F W. apply Forall_insert; [by eapply all_stable|done]. Qed.

Lemma wf_raw_ok h d : wf h d -> raw_ok h (d_raw d).
Proof.
  intros [n W]. split; [by eapply wf_map|]. intros k s Hk. by destruct (wfn_col _ _ _ _ _ W Hk).
Qed.
Lemma to_dataframe_wf h r d h' : raw_ok h r -> valid_str h (r_strs r) ->
  to_dataframe r h = Ok (d, h') -> wf h' d /\ ext h h'.
Proof.
  intros R S E. change (to_dataframe r h) with (to_dataframe_ord (map_to_list (mp h (r_maps r))) r h) in E.
  pose proof (to_dataframe_ord_spec h r _ R S (reflexivity _)) as H. rewrite E in H.
  destruct H as (n & _ & _ & ? & ? & _). done.
Qed.
Lemma slice_view_wf h d from to v h' : wf h d ->
  (let b z := if decide (z < 0)%Z then (z + (Z.of_nat (num_rows d) + 1))%Z else z in
   (0 <= b from <= Z.of_nat (num_rows d))%Z /\ (0 <= b to <= Z.of_nat (num_rows d))%Z) ->
  slice_view d from to h = Ok (v, h') -> wf h' v /\ ext h h'.
Proof.
  intros W G E. change (0 <= bound (num_rows d) from <= Z.of_nat (num_rows d) /\
    0 <= bound (num_rows d) to <= Z.of_nat (num_rows d))%Z in G.
  destruct (decide (bound (num_rows d) from <= bound (num_rows d) to)%Z) as [Hle|Hgt].
  - destruct (slice_view_fwd h d from to W) as (v1 & h1 & E1 & _ & ? & ? & _); [lia..|].
    rewrite E in E1. by simplify_eq.
  - destruct (slice_view_rev h d from to W) as (v1 & h1 & E1 & _ & ? & ? & _); [lia..|].
    rewrite E in E1. by simplify_eq.
Qed.
Lemma set_raw_cpu_wf h d n : wf h d -> wf h (set_raw d (set_max_cpu (d_raw d) n)).
Proof. intros [m W]. exists m. destruct W. by split. Qed.

Lemma step_wf h ds o ds' h' : Forall (wf h) ds -> op_guard h ds o -> step ds o h = Ok (ds', h') ->
  Forall (wf h') ds' /\ stable h h'.
Proof.
  intros F G E.
  assert (Hd : forall i d, ds !! i = Some d -> wf h d).
  { intros i d Hi. rewrite Forall_forall in F. apply F. by eapply elem_of_list_lookup_2. }
  assert (Hds : forall is l, Forall2 (fun i d => ds !! i = Some d) is l -> Forall (wf h) l).
  { intros is l H. apply Forall_forall. intros d Hin. apply elem_of_list_lookup in Hin as [j Hj].
    destruct (Forall2_lookup_r _ _ _ _ _ H Hj) as (i & _ & Hi). eauto. }
  assert (Hadd : forall v, wf h' v /\ ext h h' -> Forall (wf h') (ds ++ [v]) /\ stable h h').
  { intros v [W X]. split; [|by apply ext_stable]. eapply all_add; eauto using ext_stable. }
  assert (Hrepl : forall i v, wf h' v -> stable h h' -> Forall (wf h') (<[i := v]> ds) /\ stable h h').
  { intros i v W X. split; [|done]. by eapply all_repl. }
  assert (Hkeep : stable h h' -> Forall (wf h') ds /\ stable h h').
  { intros X. split; [|done]. by eapply all_stable. }
  destruct o; cbn [step] in E;
    try (apply with_df_ok in E as (d & Hi & E); pose proof (Hd i d Hi) as W);
    try (apply with_dfs_ok in E as (l0 & Hl & E); pose proof (Hds _ _ Hl) as WL);
    try (lazymatch type of E with add1 _ _ _ = _ => idtac end; apply add1_ok in E as (v & E & ->); apply Hadd);
    try (lazymatch type of E with adds _ _ _ = _ => idtac end; apply adds_ok in E as (vs' & E & ->));
    try (lazymatch type of E with repl _ _ _ _ = _ => idtac end; apply repl_ok in E as (v & E & ->); apply Hrepl);
    try (lazymatch type of E with keep _ _ _ = _ => idtac end; apply keep_ok in E as (u & E & ->); apply Hkeep);
    try (lazymatch type of E with addo _ _ _ = _ => idtac end; apply addo_ok in E as (oo & E & ->));
    try (lazymatch type of E with on_raw _ _ _ = _ => idtac end; apply on_raw_ok in E as (r' & E & ->));
    cbn [op_guard] in G.
  - (* OBuild *)
    apply bind_ok in E as (r0 & h0 & E0 & E). apply bind_ok in E as (r1 & h1 & E1 & E).
    destruct (new_raw_built h) as (r0' & h0' & E0' & B0 & _). rewrite E0 in E0'. simplify_eq.
    destruct (run_bops_spec h os _ _ _ B0 G) as (r1' & h1' & E1' & B1 & _). rewrite E1 in E1'. simplify_eq.
    destruct (built_raw_ok _ _ _ _ B1) as [R1 _]. destruct (to_dataframe_wf h1' r1' v h') as [? X]; [done|by apply B1|done|].
    split; [done|]. eapply ext_trans; [apply B1|done].
  - (* OMergeRows *)
    apply bind_ok in E as (r1 & h1 & E1 & E).
    destruct (merge_raw_rows_spec h (d_raw <$> l0)) as (r & h1' & E1' & X & R & Hs & _).
    { apply Forall_fmap. eapply Forall_impl; [exact WL|]. apply wf_raw_ok. }
    rewrite E1 in E1'. simplify_eq.
    destruct (to_dataframe_wf h1' r v h') as [? X2]; [done|by rewrite Hs|done|].
    split; [done|]. by eapply ext_trans.
  - (* OEmpty *)
    destruct (empty_df_spec n cpu h G) as (e & h1 & E1 & X & A & _ & _ & L & M & Em & I & K & S).
    rewrite E in E1. simplify_eq. split; [|done]. exists (Z.to_nat n).
    assert (Hraw : r_strs (d_raw e) = None /\ r_shared (d_raw e) = None /\ d_viewed e = false).
    { unfold empty_df in E. apply bind_ok in E as (l & h2 & _ & E). case_decide.
      - apply bind_ok in E as (m & h3 & _ & [<- <-]%ret_ok). done.
      - apply ret_ok in E as [<- <-]. done. }
    destruct Hraw as (R1 & R2 & R3).
    assert (Hin : inds e = seq 0 (Z.to_nat n)).
    { unfold inds, ilist. rewrite I. simpl. by rewrite seq_length, take_ge by (rewrite seq_length; lia). }
    assert (Hnr : num_rows e = Z.to_nat n).
    { unfold num_rows. rewrite I. simpl. by rewrite seq_length. }
    split.
    + rewrite M, L. lia.
    + by rewrite R1.
    + by rewrite R2.
    + rewrite M, Em. apply map_Forall_empty.
    + rewrite I. simpl. done.
    + rewrite Hin. apply Forall_forall. intros i Hi%elem_of_seq. lia.
    + intros _. by rewrite Hin, Hnr.
    + done.
    + by rewrite Hnr, S.
  - apply ret_ok in E as [<- <-]. split; [by apply wf_view|apply ext_refl].
  - apply ret_ok in E as [<- <-]. split; [by apply C06_reverse_view_flips_main|apply ext_refl].
  - apply ret_ok in E as [<- <-]. split; [|apply ext_refl].
    by destruct (reset_index_view_spec h d W) as (p & _ & _ & _ & _ & ?).
  - pose proof (index_view_spec h d l W) as H. rewrite E in H. by destruct H as (_ & _ & ? & ? & _).
  - eapply slice_view_wf; [done| |exact E]. exact (G d Hi).
  - pose proof (mask_view_spec h d mask W) as H. rewrite E in H. destruct H as (_ & _ & ? & ->).
    split; [done|apply ext_refl].
  - destruct (decide (cols = [])) as [->|Hne].
    + rewrite column_view_nil in E. simplify_eq. split; [by apply wf_view|apply ext_refl].
    + destruct (column_view_spec h d cols W Hne) as (v1 & h1 & E1 & _ & ? & ? & _). rewrite E in E1. by simplify_eq.
  - destruct (shuffle_view_spec rnd h d W) as (p & v1 & h1 & _ & _ & E1 & _ & ? & ? & _). rewrite E in E1. by simplify_eq.
  - pose proof (sample_view_spec rnd h d n repl0 W) as H. rewrite E in H. by destruct H as (_ & _ & _ & ? & ? & _).
  - pose proof (split_view_spec h d b W) as H. rewrite E in H. destruct H as (_ & X & _ & F2 & _).
    split; [|by apply ext_stable]. apply Forall_app. split; [eapply all_stable; eauto using ext_stable|done].
  - pose proof (split_n_view_spec h d n W (G d Hi)) as H. rewrite E in H. destruct H as (_ & _ & X & _ & F2 & _).
    split; [|by apply ext_stable]. apply Forall_app. split; [eapply all_stable; eauto using ext_stable|done].
  - destruct G as (G1 & G2 & G3). apply bind_ok in E as ([a b] & h1 & E & [<- <-]%ret_ok).
    pose proof (split_train_test_spec h d r W (G3 d Hi) G1 G2) as H. rewrite E in H.
    destruct H as (_ & _ & ? & ? & X & _). split; [|by apply ext_stable].
    apply Forall_app. split; [eapply all_stable; eauto using ext_stable|]. by repeat constructor.
  - pose proof (sorted_view_spec asort h d c W G) as H. rewrite E in H.
    by destruct H as (_ & _ & _ & _ & _ & _ & _ & ? & ? & _).
  - pose proof (top_view_spec asort h d c n asc sorted W G) as H. rewrite E in H.
    by destruct H as (_ & _ & _ & _ & _ & _ & _ & ? & ? & _).
  - destruct (detached_view_spec h d cols W) as (v1 & h1 & E1 & ? & ? & _). rewrite E in E1. by simplify_eq.
  - destruct (copy_df_spec h d W) as (v1 & h1 & E1 & ? & ? & _). rewrite E in E1. by simplify_eq.
  - destruct (shallow_copy_spec h d W) as (v1 & h1 & E1 & ? & _ & ? & _). rewrite E in E1. by simplify_eq.
  - destruct (decide (cols = [])) as [->|Hne].
    + rewrite hash_strings_view_nil in E. simplify_eq. split; [by apply wf_view|apply ext_refl].
    + destruct (G d Hi Hne) as [G1 G2].
      destruct (hash_strings_view_spec h d cols W Hne G1 G2) as (v1 & h1 & E1 & ? & ? & _). rewrite E in E1. by simplify_eq.
  - destruct u. apply wrt_stable. by eapply do_writes_spec.
  - (* OOverwrite *)
    destruct G as (G1 & G2 & G3). specialize (G3 d Hi). destruct W as [n W].
    destruct (mp h (r_maps (d_raw d)) !! (k, c)) as [s|] eqn:Es.
    + destruct (decide (s_len s = 0)) as [Hz|Hz].
      * pose proof (overwrite_create h d k strs c vs ltac:(by exists n) ltac:(by left) G2 G1 ltac:(right; eauto)) as H.
        rewrite E in H. destruct H as (_ & ? & _ & _ & _ & S & _). auto.
      * rewrite (overwrite_existing h d n k strs c vs s W Es Hz) in E.
        pose proof (write_column_spec h d n k c s vs W Es G1) as H.
        destruct (write_loop s (inds d) vs h) as [[u h1]|] eqn:E1; [|done]. simplify_eq.
        destruct H as (_ & H & _). eapply wrt_stable; [done|by exists n].
    + pose proof (overwrite_create h d k strs c vs ltac:(by exists n) ltac:(by left) G2 G1 ltac:(by left)) as H.
      rewrite E in H. destruct H as (_ & ? & _ & _ & _ & S & _). auto.
  - destruct G as (G1 & G2 & G3). specialize (G3 d Hi). destruct W as [n W].
    destruct (mp h (r_maps (d_raw d)) !! (k, c)) as [s|] eqn:Es.
    + destruct (decide (s_len s = 0)) as [Hz|Hz].
      * pose proof (overwrite_create h d k strs c vs ltac:(by exists n) ltac:(by left) G2 G1 ltac:(right; eauto)) as H.
        rewrite E in H. destruct H as (_ & ? & _ & _ & _ & S & _). auto.
      * rewrite (overwrite_existing h d n k strs c vs s W Es Hz) in E.
        pose proof (write_column_spec h d n k c s vs W Es G1) as H.
        destruct (write_loop s (inds d) vs h) as [[u h1]|] eqn:E1; [|done]. simplify_eq.
        destruct H as (_ & H & _). by eapply wrt_stable.
    + pose proof (overwrite_create h d k strs c vs ltac:(by exists n) ltac:(by left) G2 G1 ltac:(by left)) as H.
      rewrite E in H. destruct H as (_ & ? & _ & _ & _ & S & _). auto.
  - pose proof (rename_spec h d old new W G) as H. rewrite E in H. by destruct H as (_ & _ & _ & ? & _).
  - pose proof (rename_spec h d old new W G) as H. rewrite E in H. by destruct H as (_ & _ & _ & _ & _ & ? & _).
  - destruct (drop_spec h d cols W) as (h1 & E1 & _ & _ & ?). rewrite E in E1. by simplify_eq.
  - destruct (alloc_cols_df h d k cols W ltac:(left; eauto)) as (r1 & h1 & E1 & ? & _). rewrite E in E1. by simplify_eq.
  - destruct (alloc_cols_df h d k cols W ltac:(left; eauto)) as (r1 & h1 & E1 & _ & _ & S & _). rewrite E in E1.
    simplify_eq. apply S. eauto.
  - destruct (alloc_strings_df h d cols W ltac:(left; eauto)) as (r1 & h1 & E1 & ? & _). rewrite E in E1. by simplify_eq.
  - destruct (alloc_strings_df h d cols W ltac:(left; eauto)) as (r1 & h1 & E1 & _ & _ & S & _). rewrite E in E1.
    simplify_eq. apply S. eauto.
  - destruct G as [G1 G2]. destruct (int_to_floats_spec h d cols W G1 (G2 d Hi)) as (r1 & h1 & E1 & ? & _).
    rewrite E in E1. by simplify_eq.
  - destruct G as [G1 G2]. destruct (int_to_floats_spec h d cols W G1 (G2 d Hi)) as (r1 & h1 & E1 & _ & _ & ? & _).
    rewrite E in E1. by simplify_eq.
  - destruct G as [G1 G2]. destruct (bool_to_floats_spec h d cols W G1 (G2 d Hi)) as (r1 & h1 & E1 & ? & _).
    rewrite E in E1. by simplify_eq.
  - destruct G as [G1 G2]. destruct (bool_to_floats_spec h d cols W G1 (G2 d Hi)) as (r1 & h1 & E1 & _ & _ & ? & _).
    rewrite E in E1. by simplify_eq.
  - destruct (unshare_df h d cols W) as (r1 & h1 & E1 & _ & ? & _). rewrite E in E1. by simplify_eq.
  - destruct (unshare_df h d cols W) as (r1 & h1 & E1 & ? & _). rewrite E in E1. simplify_eq. by apply preserved_stable.
  - destruct (zero_mask_spec h d W) as (s & h1 & E1 & ? & _). rewrite E in E1. simplify_eq. by apply preserved_stable.
  - destruct (empty_mask_spec h d W) as (s & h1 & E1 & ? & _). rewrite E in E1. simplify_eq. by apply preserved_stable.
  - apply ret_ok in E as [<- <-]. destruct W as [m W]. exists m. destruct W. by split.
  - apply ret_ok in E as [<- <-]. apply ext_stable, ext_refl.
  - apply ret_ok in E as [<- <-]. by apply set_raw_cpu_wf.
  - apply ret_ok in E as [<- <-]. apply ext_stable, ext_refl.
  - destruct (row_concat_spec h d l0 ltac:(by constructor)) as (o1 & h1 & E1 & X & H). rewrite E in E1. simplify_eq.
    destruct o1 as [v|]; [|by apply Hkeep, ext_stable]. apply Hadd. split; [apply H|done].
  - destruct (column_concat_view_spec h d l0 ltac:(by constructor)) as (o1 & h1 & E1 & X & _ & H). rewrite E in E1. simplify_eq.
    destruct o1 as [v|]; [|by apply Hkeep, ext_stable]. apply Hadd. split; [|done].
    destruct (G d Hi) as (n & Wn & Gl).
    destruct H as (_ & _ & _ & _ & _ & _ & _ & _ & _ & _ & _ & H & _). exists n. apply H. constructor; [done|].
    apply Forall_forall. intros d2 Hin. apply elem_of_list_lookup in Hin as [j Hj].
    destruct (Forall2_lookup_r _ _ _ _ _ Hl Hj) as (i2 & Hi1 & Hi2).
    rewrite Forall_forall in Gl. eapply Gl; [|done]. by eapply elem_of_list_lookup_2.
  - destruct (column_copy_concat_spec h d l0 ltac:(by constructor)) as (o1 & h1 & E1 & X & H). rewrite E in E1. simplify_eq.
    destruct o1 as [v|]; [|by apply Hkeep, ext_stable]. apply Hadd. split; [apply H|done].
Qed.

Lemma hist_wf h ds os h' ds' : hist h ds os h' ds' -> Forall (wf h) ds -> Forall (wf h') ds'.
Proof.
  induction 1 as [|h ds o h1 ds1 os h2 ds2 G E R IH]; [done|]. intros F.
  apply IH. by eapply step_wf.
Qed.
End frame.
