(** Histories of operations: the property theorems C20 and C21. *)
From Verif Require Import P_WorldMain.
Local Existing Instance ex_rt.

(** C20 every history of (guarded) operations, of any length, over any number of
    dataframes, leaves all of them consistent. [op_guard] (P_World.v) lists
    what is excluded; without it the claim is false. *)
Theorem C20_history_partial : forall (rt : GoRT) (h : heap) (os : list op) (h' : heap) (ds : list dframe),
  hist h [] os h' ds -> Forall (fun d => wf h' d /\ consistent h' d) ds.
Proof. exact C20_history_partial_main. Qed.
Print Assumptions C20_history_partial.
Theorem C20_step : forall (rt : GoRT) (h : heap) (ds : list dframe) (o : op) (h' : heap) (ds' : list dframe),
  Forall (wf h) ds -> op_guard h ds o -> step ds o h = Ok (ds', h') ->
  Forall (wf h') ds' /\ forall d, wf h d -> wf h' d.
Proof. exact C20_step_main. Qed.
Print Assumptions C20_step.
Theorem C20_unguarded_refuted :
  (* SliceView beyond NumRows *)
  broken (rt := ex_rt) w_slice 2 KInt "a" 3 /\
  (* a column allocated in EmptyDataFrame *)
  broken (rt := ex_rt) w_empty 0 KInt "a" 0 /\
  (* IntToFloats with an unknown column *)
  broken (rt := ex_rt) w_ints 0 KFloat "zz" 0 /\
  (* ColumnConcatView of different numbers of rows *)
  broken (rt := ex_rt) w_cat 2 KInt "b" 1.
Proof. exact C20_unguarded_refuted_main. Qed.
Print Assumptions C20_unguarded_refuted.
Example C20_case : hist heap0 [] c20_os (w_heap c20_os) (w_dfs c20_os) /\ length (w_dfs c20_os) = 9 /\
  (forall d, w_dfs c20_os !! 5 = Some d ->
     show KInt "b" (w_heap c20_os) d = Some [VInt 9; VInt 5; VInt 9; VInt 9; VInt 5; VInt 9]).
Proof.
  split; [apply guardsb_hist; by vm_compute|]. split; [by vm_compute|]. intros d. vm_compute. by intros [= <-].
Qed.

(** C21 AreIndicesAltered() = false means that the indices are 0..NumRows-1 and
    that there are no other allocated rows. *)
Theorem C21_are_indices_altered : forall (rt : GoRT) (h : heap) (os : list op) (h' : heap) (ds : list dframe),
  hist h [] os h' ds -> forall d, d ∈ ds -> d_viewed d = false ->
  inds d = seq 0 (num_rows d) /\
  forall k s, mp h' (r_maps (d_raw d)) !! k = Some s -> s_len s = num_rows d.
Proof. exact C21_are_indices_altered_main. Qed.
Print Assumptions C21_are_indices_altered.
Example C21_case : exists d, d ∈ w_dfs c20_os /\ d_viewed d = false /\ num_rows d = 6.
Proof.
  exists (default dummy (w_dfs c20_os !! 5)). split; [|by vm_compute].
  apply (elem_of_list_lookup_2 _ 5). by vm_compute.
Qed.
