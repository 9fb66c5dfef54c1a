(** ToCSVs with goroutines: C97. The transition system is in M_Writers.v. *)
From Verif Require Import M_Writers.
From Verif Require Import P_Exec.
From Verif Require Import P_ViewMain P_CsvMain P_CsvW2 P_WritersMain P_Base P_Check.

(** C97 In every interleaving the writers get the same, ToCSVs returns the same,
    and it ends. *)
Theorem C97_any_schedule_partial : forall (crt : CsvRT) (rt : GoRT), forall (order : nat -> nat -> gset string -> list string) (flush : nat -> nat -> bool) (o : wspec) (h : heap) (d : dframe) (n : nat),
  wf h d -> 0 < num_rows d \/ n <= 1 ->
  exists dfs h1, split_n_view (sort_if_needed o d) (Z.of_nat n) h = Ok (dfs, h1) /\ length dfs = n /\
  (* every goroutine has its own writer *)
  let next := w_next order flush (WSpec (ws_marker o) (ws_min_rows o) true) dfs (seq 0 n) in
  (exists bound, forall k s, nsteps next k (w_init n n h1) s -> k <= bound) /\
  forall s, rtc next (w_init n n h1) s ->
    preserved h (w_heap s) /\
    (* when Wait returns, no goroutine writes its error any more *)
    (w_wait s = 0 -> forall i g, w_gors s !! i = Some g -> g = GDone \/ g = GCrash) /\
    match to_csvs order flush o d n h with
    | Ok (files, failed, _) => w_dead s = false /\ GPanic ∉ w_gors s /\ GCrash ∉ w_gors s /\
        (forall e, w_ret s = Some e -> e = failed /\ (w_files s).*1 = files) /\
        (stuck next s -> is_Some (w_ret s) /\ Forall (eq GDone) (w_gors s))
    | Panic => (stuck next s -> w_dead s = true) /\ forall e, w_ret s = Some e -> GCrash ∈ w_gors s
    end.
Proof. intros crt rt. exact C97_any_schedule_partial_main. Qed.
Print Assumptions C97_any_schedule_partial.
Theorem C97_files_partial : forall (crt : CsvRT) (rt : GoRT), forall (order : nat -> nat -> gset string -> list string) (flush : nat -> nat -> bool) (o : wspec) (h : heap) (d : dframe) (n : nat),
  wf h d -> (forall i, perm_order (order i)) -> (forall i j, flush i j = true) ->
  d_viewed d = false \/ ws_order o = true -> 0 < num_rows d \/ n <= 1 ->
  exists dfs h1, split_n_view (sort_if_needed o d) (Z.of_nat n) h = Ok (dfs, h1) /\ length dfs = n /\
  let next := w_next order flush (WSpec (ws_marker o) (ws_min_rows o) true) dfs (seq 0 n) in
  forall s, rtc next (w_init n n h1) s -> stuck next s ->
    (w_dead s = true /\ unwritable (abs h d)) \/
    (w_dead s = false /\ w_ret s = Some false /\ preserved h (w_heap s) /\ length (w_files s) = n /\
     (0 < n -> exists parts rest fs, t_concat parts (abs h d) /\ (w_files s).*1 = fs ++ rest /\ Forall (fun f => f = [[]]) rest /\
        Forall2 (fun t f => exists keys rows, csv_order t keys /\ t_records (ws_marker o) keys t = Some rows /\ f = (snd <$> keys) :: rows) parts fs)).
Proof. intros crt rt. exact C97_files_partial_main. Qed.
Print Assumptions C97_files_partial.
Section cases.
Local Existing Instance ex_rt.
Local Existing Instance ex_crt.
Example C97_case : wf ex_h ex_d /\ 0 < num_rows ex_d /\
  split_n_view ex_d 2 ex_h = Ok (c97_dfs ex_d ex_h, c97_h1 ex_d ex_h) /\
  c97_show (c97_run ex_d ex_h [0; 1] c97_mixed) = Some
    ([[["f"; "a"; "b"; "s"]; ["true"; "5"; "0.5"; "x"]; ["false"; "3"; "0"; ""]];
      [["f"; "a"; "b"; "s"]; ["true"; "9"; "1"; "yy"]; ["false"; "1"; "1"; "x"]]], Some false, false, [true; true]).
Proof. exact C97_check_main. Qed.
(** Not if a writer is passed twice. *)
Theorem C97_same_writer_refuted : exists s1 s2,
  let next := w_next (fun _ => names_order) (fun _ => all_ok) c97_o (c97_dfs ex_d ex_h) [0; 0] in
  rtc next (w_init 2 1 (c97_h1 ex_d ex_h)) s1 /\ rtc next (w_init 2 1 (c97_h1 ex_d ex_h)) s2 /\
  w_ret s1 = Some false /\ w_ret s2 = Some false /\
  (w_files s1).*1 = [[["f"; "a"; "b"; "s"]; ["true"; "5"; "0.5"; "x"]; ["false"; "3"; "0"; ""]; ["f"; "a"; "b"; "s"]; ["true"; "9"; "1"; "yy"]; ["false"; "1"; "1"; "x"]]] /\
  (w_files s2).*1 = [[["f"; "a"; "b"; "s"]; ["true"; "9"; "1"; "yy"]; ["false"; "1"; "1"; "x"]; ["f"; "a"; "b"; "s"]; ["true"; "5"; "0.5"; "x"]; ["false"; "3"; "0"; ""]]].
Proof. exact C97_same_writer_refuted_main. Qed.
Print Assumptions C97_same_writer_refuted.
(** ToCSVs can return without an error although a goroutine has panicked. *)
Theorem C97_panic_returns_refuted : exists s,
  wf c97_h c97_d /\ unwritable (abs c97_h c97_d) /\ split_n_view c97_d 2 c97_h = Ok (c97_dfs c97_d c97_h, c97_h1 c97_d c97_h) /\
  to_csvs (fun _ => names_order) (fun _ => all_ok) c97_o c97_d 2 c97_h = Panic /\
  rtc (w_next (fun _ => names_order) (fun _ => all_ok) c97_o (c97_dfs c97_d c97_h) [0; 1]) (w_init 2 2 (c97_h1 c97_d c97_h)) s /\
  w_ret s = Some false /\ w_dead s = false /\ (w_files s).*1 = [[["s"]; ["u"]]; [["s"]]].
Proof. exact C97_panic_returns_refuted_main. Qed.
Print Assumptions C97_panic_returns_refuted.
End cases.
