(** README.md: view-returning functions do not copy data. C104. *)
From Verif Require Import P_NoCopyMain.
From stdpp Require Import strings list.
From Verif Require Import Spec_NoCopy P_Base P_Check.

(** C104 No cell is allocated or written, whatever the dataframe. *)
Theorem C104_views : forall (rt : GoRT), forall d c h vs h', run_view d c h = Ok (vs, h') ->
  h_arr h' = h_arr h /\ forall v, v ∈ vs -> old_storage h h' v.
Proof. intros rt. exact C104_views_main. Qed.
Print Assumptions C104_views.
(** HashStringsView allocates one cell per row of each column it hashes. *)
Theorem C104_hash : forall (rt : GoRT), forall d cols h v h', cols <> [] -> hash_strings_view d cols h = Ok (v, h') ->
  total_cells h' = total_cells h + length cols * num_alloc_rows (mp h (r_maps (d_raw d))).
Proof. intros rt. exact C104_hash_main. Qed.
Print Assumptions C104_hash.
(** DetachedView allocates the columns it is asked to detach, unless as many
    names are given as there are columns and they are not their names ... *)
Theorem C104_detached_partial : forall (rt : GoRT), forall d cols h v h', wf h d -> detached_view d cols h = Ok (v, h') ->
  let m := mp h (r_maps (d_raw d)) in
  cols <> [] -> length cols <> num_columns m \/ (forall c, c ∈ cols <-> c ∈ names m) ->
  total_cells h' = total_cells h + num_alloc_rows m * size (filter (fun p : key * slice => p.1.2 ∈ cols) m).
Proof. intros rt. exact C104_detached_partial_main. Qed.
Print Assumptions C104_detached_partial.
(** ... in which case it allocates all of them, ... *)
Theorem C104_detached_refuted : exists (rt : GoRT) h d cols v h', wf h d /\ detached_view d cols h = Ok (v, h') /\
  (forall c, c ∈ cols -> c = "a") /\ num_alloc_rows (mp h (r_maps (d_raw d))) = 4 /\ total_cells h' = total_cells h + 4 * num_columns (mp h (r_maps (d_raw d))) /\
  1 < num_columns (mp h (r_maps (d_raw d))).
Proof. exact C104_detached_refuted_main. Qed.
Print Assumptions C104_detached_refuted.
(** ... as it does without any name. *)
Theorem C104_all : forall (rt : GoRT), forall d h v h', wf h d -> detached_view d [] h = Ok (v, h') ->
  let m := mp h (r_maps (d_raw d)) in total_cells h' = total_cells h + num_alloc_rows m * num_columns m.
Proof. intros rt. exact C104_all_main. Qed.
Print Assumptions C104_all.
Example C104_case : wf ex_h ex_d /\ run_view (rt := ex_rt) ex_d (VSplit 3) ex_h = Ok nc_view /\ length nc_view.1 = 2 /\ 0 < total_cells ex_h /\
  is_Some (mp nc_view.2 (r_maps (d_raw (default ex_d (head nc_view.1)))) !! (KInt, "a")).
Proof. exact C104_check_main. Qed.
