(** The debugging identifiers of the data: C100. *)
From Coq Require Import NArith Sorted.
From Verif Require Import M_Uid P_UidMain.
From stdpp Require Import strings list.
From Verif Require Import Spec_Uid P_Base P_Check.

(** C100 What PrintUIDs shows are the positions of the bits, from which the
    identifier can be recovered. *)
Theorem C100_printed : forall v : N, exists bits ts, StronglySorted N.lt bits /\
  (forall b, b ∈ bits <-> N.testbit v b = true) /\ Forall2 numeral36 bits ts /\ printable_uid v = barred ts.
Proof. exact C100_printed_main. Qed.
Print Assumptions C100_printed.
Theorem C100_unique : forall v w : N, printable_uid v = printable_uid w -> v = w.
Proof. exact C100_unique_main. Qed.
Print Assumptions C100_unique.
Theorem C100_generated : forall r : N, exists b, (b < 64)%N /\ forall i, N.testbit (gen_uid r) i = true <-> i = b.
Proof. exact C100_generated_main. Qed.
Print Assumptions C100_generated.
(** If dataframes that share a cell have a bit in common, this stays so when a
    dataframe is made from another by View, ColumnView, DetachedView, ShallowCopy
    or Copy. *)
Theorem C100_invariant : forall (rt : GoRT) (h : heap) (d : dframe) (u : N) (op : u_op), wf h d ->
  exists v u' h', u_run op (d, u) h = Ok ((v, u'), h') /\ wf h' v /\ preserved h h' /\
    forall d0 u0, wf h d0 -> (shares h d d0 -> overlap u u0) -> shares h' v d0 -> overlap u' u0.
Proof. exact C100_invariant_main. Qed.
Print Assumptions C100_invariant.
(** TransferRawDataFrom: whatever shared an array with either storage and had a
    bit in common with its identifier still has one with the new identifier. *)
Theorem C100_transfer : forall (rt : GoRT) (h : heap) (d from : dframe) (u v : N), wf h d -> wf h from ->
  exists r w h', u_transfer (d_raw d, u) (d_raw from, v) h = Ok ((r, w), h') /\
    transfer_raw (d_raw d) (d_raw from) h = Ok (r, h') /\
    forall m0 u0, (common (mp h (r_maps (d_raw d))) m0 -> overlap u u0) ->
      (common (mp h (r_maps (d_raw from))) m0 -> overlap v u0) ->
      common (mp h' (r_maps r)) m0 -> overlap w u0.
Proof. exact C100_transfer_main. Qed.
Print Assumptions C100_transfer.
Example C100_transfer_case : wf ex_h ex_d /\
  common (mp ex_h (r_maps (d_raw ex_d))) (mp ex_h (r_maps (d_raw ex_d))) /\
  (let '(r, u, h) := run_u (d_raw dummy) (@u_transfer ex_rt (d_raw ex_d, 1%N) (d_raw ex_d, 4%N)) ex_h in u = 5%N).
Proof. exact C100_transfer_check_main. Qed.
(** HashStringsView: unless as many names are given as there are columns. *)
Theorem C100_hash_partial : forall (rt : GoRT) (h : heap) (d : dframe) (u : N) cols rnd v u' h',
  u_hash_strings_view (d, u) cols rnd h = Ok ((v, u'), h') -> length cols <> size (t_cols (abs h d)) ->
  hash_strings_view d cols h = Ok (v, h') /\ forall u0, overlap u u0 -> overlap u' u0.
Proof. exact C100_hash_partial_main. Qed.
Print Assumptions C100_hash_partial.
(** Otherwise the string columns are shared and the identifier is a new one. *)
Theorem C100_hash_refuted : exists (rt : GoRT) (h : heap) (d : dframe) cols rnd v u' h',
  wf h d /\ NoDup cols /\ (forall c, c ∈ cols -> is_Some (t_cols (abs h d) !! (KObj, c)) /\ c ∈ t_strs (abs h d)) /\
  u_hash_strings_view (d, 1%N) cols rnd h = Ok ((v, u'), h') /\ shares h' v d /\ ~ overlap 1 u'.
Proof. exact C100_hash_refuted_main. Qed.
Print Assumptions C100_hash_refuted.
(** A view gets a column of its own, is viewed in turn, and then calls Unshare:
    that column stays shared. *)
Theorem C100_unshare_refuted : exists (rt : GoRT) (h : heap) (d : dframe) rnd r' u' h',
  wf h d /\ wf h (view d) /\ u_unshare (d_raw d, 1%N) [] rnd h = Ok ((r', u'), h') /\
  shares h' (set_raw d r') (view d) /\ ~ overlap u' 1.
Proof. exact C100_unshare_refuted_main. Qed.
Print Assumptions C100_unshare_refuted.
Example C100_case : printable_uid (2 ^ 0 + 2 ^ 11 + 2 ^ 37)%N = "|0|b|11|" /\ printable_uid 0 = "|" /\
  wf ex_h ex_d /\ shares ex_h ex_d ex_d /\ overlap 1 1 /\
  (let '(v, u, h) := run_u dummy (@u_run ex_rt (UDetached ["a"] 5) (ex_d, 1%N)) ex_h in
   u = 33%N /\ cell_of h v (KFloat, "b") 0 = cell_of h ex_d (KFloat, "b") 0 /\ cell_of h v (KInt, "a") 0 <> cell_of h ex_d (KInt, "a") 0).
Proof. exact C100_check_main. Qed.
