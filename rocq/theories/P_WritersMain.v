(** ToCSVs with goroutines: C97. *)
From Verif Require Import M_Writers.
From Verif Require Import P_Exec.
From Verif Require Import P_ViewMain P_CsvMain P_Csv2 P_CsvW P_CsvW2 P_View2 P_View3 P_Writers P_Base P_Check.

(** No one can do anything any more. *)
Definition stuck {A} (next : A -> A -> Prop) (s : A) : Prop := forall s', ~ next s s'.

Section main.
Context {crt : CsvRT} {rt : GoRT}.
Lemma C97_any_schedule_partial_main : forall (order : nat -> nat -> gset string -> list string) (flush : nat -> nat -> bool) (o : wspec) (h : heap) (d : dframe) (n : nat),
  wf h d -> 0 < num_rows d \/ n <= 1 ->
  exists dfs h1, split_n_view (sort_if_needed o d) (Z.of_nat n) h = Ok (dfs, h1) /\ length dfs = n /\
  (* every goroutine has its own writer *)
  let next := w_next order flush (WSpec (ws_marker o) (ws_min_rows o) true) dfs (seq 0 n) in
  (exists bound, forall k s, nsteps next k (w_init n n h1) s -> k <= bound) /\
  forall s, rtc next (w_init n n h1) s ->
    preserved h (w_heap s) /\
    (* when Wait returns, no goroutine writes its error any more *)
    (w_wait s = 0 -> forall i g, w_gors s !! i = Some g -> g = GDone \/ g = GCrash) /\
    match to_csvs order flush o d n h with
    | Ok (files, failed, _) => w_dead s = false /\ GPanic ∉ w_gors s /\ GCrash ∉ w_gors s /\
        (forall e, w_ret s = Some e -> e = failed /\ (w_files s).*1 = files) /\
        (stuck next s -> is_Some (w_ret s) /\ Forall (eq GDone) (w_gors s))
    | Panic => (stuck next s -> w_dead s = true) /\ forall e, w_ret s = Some e -> GCrash ∈ w_gors s
    end.
Proof.
  intros order flush o h d n W Hn. pose proof (C10_split_n_view_parts_partial_main rt h (sort_if_needed o d) (Z.of_nat n) (sort_wf o h d W)) as HS.
  rewrite sort_rows in HS. specialize (HS ltac:(lia)). unfold to_csvs.
  destruct (split_n_view (sort_if_needed o d) (Z.of_nat n) h) as [[dfs h1]|] eqn:ES; [|lia].
  destruct HS as (_ & Hl & _ & Wf & Pr & _). rewrite Nat2Z.id in Hl. exists dfs, h1. split; [done|]. split; [done|]. cbv zeta.
  set (o' := WSpec (ws_marker o) (ws_min_rows o) true). assert (Ho : ws_order o' = true) by done. assert (Hle : n <= length dfs) by lia.
  split; [eexists; intros k s; by apply steps_bounded|]. intros s R. apply inv_reach in R; [|done..].
  split; [eapply preserved_trans; [exact Pr|]; apply ext_preserved, (i_heap _ _ _ _ _ _ _ R)|].
  split; [intros H0; by eapply wait_over|].
  rewrite (bind_eq _ _ _ _ _ ES). pose proof (inv_result _ _ _ _ _ _ Ho Hle Wf s R) as HR. unfold bind.
  destruct (write_parts order flush o' 0 n dfs h1) as [[l h2]|] eqn:EW.
  - unfold ret. destruct HR as (H1 & H2 & H3 & H4). split; [done|]. split; [done|]. split; [done|]. split; [intros e He; destruct (H4 e He) as (_ & ? & ?); done|].
    intros Hst. destruct (stuck_over order flush o' dfs n h1 Hle s R Hst) as [Hd|(_ & ? & ?)]; [congruence|done].
  - split; [|done]. intros Hst. by eapply stuck_panic.
Qed.
(** With C47: what the writers have got when all is over. *)
Lemma C97_files_partial_main : forall (order : nat -> nat -> gset string -> list string) (flush : nat -> nat -> bool) (o : wspec) (h : heap) (d : dframe) (n : nat),
  wf h d -> (forall i, perm_order (order i)) -> (forall i j, flush i j = true) ->
  d_viewed d = false \/ ws_order o = true -> 0 < num_rows d \/ n <= 1 ->
  exists dfs h1, split_n_view (sort_if_needed o d) (Z.of_nat n) h = Ok (dfs, h1) /\ length dfs = n /\
  let next := w_next order flush (WSpec (ws_marker o) (ws_min_rows o) true) dfs (seq 0 n) in
  forall s, rtc next (w_init n n h1) s -> stuck next s ->
    (w_dead s = true /\ unwritable (abs h d)) \/
    (w_dead s = false /\ w_ret s = Some false /\ preserved h (w_heap s) /\ length (w_files s) = n /\
     (0 < n -> exists parts rest fs, t_concat parts (abs h d) /\ (w_files s).*1 = fs ++ rest /\ Forall (fun f => f = [[]]) rest /\
        Forall2 (fun t f => exists keys rows, csv_order t keys /\ t_records (ws_marker o) keys t = Some rows /\ f = (snd <$> keys) :: rows) parts fs)).
Proof.
  intros order flush o h d n W P Hf Ho Hn. destruct (C97_any_schedule_partial_main order flush o h d n W Hn) as (dfs & h1 & ES & Hl & _ & HA).
  exists dfs, h1. split; [done|]. split; [done|]. cbv zeta. intros s R Hst. destruct (HA s R) as (Pr & _ & HB). clear HA.
  pose proof (C47_splits_rows_partial_main order flush o h d n W P Hf Ho Hn) as HC.
  destruct (to_csvs order flush o d n h) as [[[files failed] h2]|].
  - destruct HC as (-> & _ & HL & HC). destruct HB as (H1 & _ & _ & H2 & H3). destruct (H3 Hst) as [[e He] _]. destruct (H2 e He) as [-> HF].
    right. split; [done|]. split; [done|]. split; [done|]. split; [rewrite <- (fmap_length fst); by rewrite HF|].
    intros H0. destruct (HC H0) as (parts & rest & HC1 & HC2 & fs & -> & HC3). exists parts, rest, fs. done.
  - destruct HB as [H1 _]. left. split; [by apply H1|by apply HC].
Qed.
End main.

(** ** Cases *)
Lemma run_rtc `{crt : CsvRT} order flush o dfs ws sched : forall s s', wr_run order flush o dfs ws sched s = Some s' -> rtc (w_next order flush o dfs ws) s s'.
Proof.
  induction sched as [|who sched IH]; intros s s' H; cbn [wr_run] in H; [injection H as <-; apply rtc_refl|].
  destruct (w_step _ _ _ _ _ who s) as [s1|] eqn:E; [|done]. eapply rtc_l; [by exists who|by apply IH].
Qed.
Section wit.
Local Existing Instance ex_rt.
Local Existing Instance ex_crt.
Definition c97_o : wspec := WSpec "" 0 true.
Definition c97_dfs (d : dframe) (h : heap) : list dframe := match split_n_view d 2 h with Ok (dfs, _) => dfs | Panic => [] end.
Definition c97_h1 (d : dframe) (h : heap) : heap := match split_n_view d 2 h with Ok (_, h) => h | Panic => h end.
Definition c97_run (d : dframe) (h : heap) (ws : list nat) (sched : list (option nat)) : option wr_state :=
  wr_run (fun _ => names_order) (fun _ => all_ok) c97_o (c97_dfs d h) ws sched (w_init 2 2 (c97_h1 d h)).
(** Both goroutines are in their loops at the same time. *)
Definition c97_mixed : list (option nat) := [Some 1; Some 0; Some 0; Some 1; Some 1; Some 0; Some 1; Some 0; Some 0; Some 1; None].
Definition c97_in_turn : list (option nat) := [Some 0; Some 0; Some 0; Some 0; Some 0; Some 1; Some 1; Some 1; Some 1; Some 1; None].
Definition c97_show (r : option wr_state) : option (list (list (list string)) * option bool * bool * list bool) :=
  match r with Some s => Some ((w_files s).*1, w_ret s, w_dead s, (fun g => match g with GDone => true | _ => false end) <$> w_gors s) | None => None end.
Lemma C97_check_main : wf ex_h ex_d /\ 0 < num_rows ex_d /\
  split_n_view ex_d 2 ex_h = Ok (c97_dfs ex_d ex_h, c97_h1 ex_d ex_h) /\
  c97_show (c97_run ex_d ex_h [0; 1] c97_mixed) = Some
    ([[["f"; "a"; "b"; "s"]; ["true"; "5"; "0.5"; "x"]; ["false"; "3"; "0"; ""]];
      [["f"; "a"; "b"; "s"]; ["true"; "9"; "1"; "yy"]; ["false"; "1"; "1"; "x"]]], Some false, false, [true; true]).
Proof. split; [exact ex_wf|]. split; [vm_compute; lia|]. split; vm_compute; reflexivity. Qed.
(** One writer passed twice: the result depends on the schedule. *)
Lemma C97_same_writer_refuted_main : exists s1 s2,
  let next := w_next (fun _ => names_order) (fun _ => all_ok) c97_o (c97_dfs ex_d ex_h) [0; 0] in
  rtc next (w_init 2 1 (c97_h1 ex_d ex_h)) s1 /\ rtc next (w_init 2 1 (c97_h1 ex_d ex_h)) s2 /\
  w_ret s1 = Some false /\ w_ret s2 = Some false /\
  (w_files s1).*1 = [[["f"; "a"; "b"; "s"]; ["true"; "5"; "0.5"; "x"]; ["false"; "3"; "0"; ""]; ["f"; "a"; "b"; "s"]; ["true"; "9"; "1"; "yy"]; ["false"; "1"; "1"; "x"]]] /\
  (w_files s2).*1 = [[["f"; "a"; "b"; "s"]; ["true"; "9"; "1"; "yy"]; ["false"; "1"; "1"; "x"]; ["f"; "a"; "b"; "s"]; ["true"; "5"; "0.5"; "x"]; ["false"; "3"; "0"; ""]]].
Proof.
  set (run := wr_run (fun _ => names_order) (fun _ => all_ok) c97_o (c97_dfs ex_d ex_h) [0; 0]).
  set (sched2 := [Some 1; Some 1; Some 0; Some 0; Some 1; Some 0; Some 1; Some 0; Some 0; Some 1; None] : list (option nat)).
  assert (H : match run c97_in_turn (w_init 2 1 (c97_h1 ex_d ex_h)), run sched2 (w_init 2 1 (c97_h1 ex_d ex_h)) with
    | Some s1, Some s2 => bool_decide (w_ret s1 = Some false /\ w_ret s2 = Some false /\
      (w_files s1).*1 = [[["f"; "a"; "b"; "s"]; ["true"; "5"; "0.5"; "x"]; ["false"; "3"; "0"; ""]; ["f"; "a"; "b"; "s"]; ["true"; "9"; "1"; "yy"]; ["false"; "1"; "1"; "x"]]] /\
      (w_files s2).*1 = [[["f"; "a"; "b"; "s"]; ["true"; "9"; "1"; "yy"]; ["false"; "1"; "1"; "x"]; ["f"; "a"; "b"; "s"]; ["true"; "5"; "0.5"; "x"]; ["false"; "3"; "0"; ""]]])
    | _, _ => false end = true) by (by vm_compute).
  destruct (run c97_in_turn _) as [s1|] eqn:E1; [|done]. destruct (run sched2 _) as [s2|] eqn:E2; [|done]. apply bool_decide_eq_true in H.
  exists s1, s2. split; [by eapply run_rtc|]. split; [by eapply run_rtc|exact H].
Qed.
(** A cell that is no string: the second goroutine panics, its deferred wg.Done
    lets ToCSVs return without an error before the process ends. *)
Definition c97_build : M dframe :=
  let* r := new_raw in
  let* r := b_add KObj r "s" [VObj (OStr "u"); VObj (OOther 1)] in
  let* r := b_mark r "s" in
  to_dataframe r.
Definition c97_d : dframe := (run_df c97_build heap0).1.
Definition c97_h : heap := (run_df c97_build heap0).2.
Lemma C97_panic_returns_refuted_main : exists s,
  wf c97_h c97_d /\ unwritable (abs c97_h c97_d) /\ split_n_view c97_d 2 c97_h = Ok (c97_dfs c97_d c97_h, c97_h1 c97_d c97_h) /\
  to_csvs (fun _ => names_order) (fun _ => all_ok) c97_o c97_d 2 c97_h = Panic /\
  rtc (w_next (fun _ => names_order) (fun _ => all_ok) c97_o (c97_dfs c97_d c97_h) [0; 1]) (w_init 2 2 (c97_h1 c97_d c97_h)) s /\
  w_ret s = Some false /\ w_dead s = false /\ (w_files s).*1 = [[["s"]; ["u"]]; [["s"]]].
Proof.
  set (sched := [Some 1; Some 1; Some 1; Some 0; Some 0; Some 0; Some 0; Some 0; None] : list (option nat)).
  assert (H : match c97_run c97_d c97_h [0; 1] sched with Some s => bool_decide (w_ret s = Some false /\ w_dead s = false /\ (w_files s).*1 = [[["s"]; ["u"]]; [["s"]]]) | None => false end = true) by (by vm_compute).
  destruct (c97_run c97_d c97_h [0; 1] sched) as [s|] eqn:E; [|done]. apply bool_decide_eq_true in H. exists s.
  split; [apply (wf_check_sound _ _ 2); by vm_compute|]. split.
  { exists "s". split; [apply (bool_decide_unpack _); by vm_compute|].
    assert (t_cols (abs c97_h c97_d) !! (KObj, "s") = Some [VObj (OStr "u"); VObj (OOther 1)]) as -> by (by vm_compute).
    exists (VObj (OOther 1)). split; [by right; left|]. done. }
  split; [by vm_compute|]. split; [by vm_compute|]. split; [by eapply run_rtc|exact H].
Qed.
End wit.
