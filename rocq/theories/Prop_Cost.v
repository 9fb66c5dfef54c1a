(** dataframe/README.md: the functions that manage copies, ordered by what they copy. C108. *)
From Verif Require Import P_CostMain.
From stdpp Require Import strings list.
From Verif Require Import Spec_NoCopy Spec_Cost P_Base P_Check.

(** C108 View < TransferRawDataFrom < ShallowCopy < Unshare < DetachedView < Copy,
    in cells of columns that are allocated (a View allocates nothing, see C104); the
    last step holds unless the dataframe shows fewer rows than it stores. *)
Theorem C108_order : forall (rt : GoRT) (h : heap) (d : dframe) (cols : list string), wf h d ->
  let m := mp h (r_maps (d_raw d)) in
  exists a b,
    (forall e, wf h e -> costs (transfer_raw (d_raw e) (d_raw d)) h 0) /\ costs (shallow_copy d) h 0 /\
    costs (unshare (d_raw d) cols) h a /\ costs (detached_view d cols) h b /\
    costs (copy_df d) h (num_rows d * num_columns m) /\
    a <= b /\ b <= num_alloc_rows m * num_columns m /\
    (num_alloc_rows m <= num_rows d -> b <= num_rows d * num_columns m).
Proof. exact C108_order_main. Qed.
Print Assumptions C108_order.
Example C108_case : wf ex_h ex_d /\ num_alloc_rows (mp ex_h (r_maps (d_raw ex_d))) <= num_rows ex_d /\
  num_rows ex_d * num_columns (mp ex_h (r_maps (d_raw ex_d))) = 16 /\
  total_cells (run_df (detached_view (rt := ex_rt) ex_d ["a"]) ex_h).2 = total_cells ex_h + 4.
Proof. exact C108_check_main. Qed.
Theorem C108_twice : forall (rt : GoRT) (h : heap) (d : dframe) r' h' cols, wf h d -> unshare (d_raw d) [] h = Ok (r', h') ->
  costs (unshare r' cols) h' 0.
Proof. exact C108_twice_main. Qed.
Print Assumptions C108_twice.
(** For such a view, DetachedView copies the rows that are not shown as well. *)
Theorem C108_refuted : exists (rt : GoRT) h d a b, wf h d /\ costs (copy_df d) h a /\ costs (detached_view d []) h b /\ a < b.
Proof. exact C108_refuted_main. Qed.
Print Assumptions C108_refuted.
