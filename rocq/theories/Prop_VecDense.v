(** What vectors and accesses refer to: C110, C111. *)
From Verif Require Import M_VecDense P_VecDenseMain.
From stdpp Require Import strings list.
From Verif Require Import P_Base P_Check.

(** C110 VecDenseCopy: the vector can be changed without changing any dataframe. *)
Theorem C110_copy : forall (rt : GoRT) h d c col, wf h d -> t_cols (abs h d) !! (KFloat, c) = Some col -> col <> [] ->
  exists s h1, vec_copy d c h = Ok (s, h1) /\ sl_vals h1 s = col /\ preserved h h1 /\
    forall ws h2, set_vec s ws h1 = Ok (tt, h2) -> preserved h h2.
Proof. exact C110_copy_main. Qed.
Print Assumptions C110_copy.
(** VecDense on a contiguous dataframe: no copy, the vector is the column. *)
Theorem C110_shared : forall (rt : GoRT) h d c col, wf h d -> d_viewed d = false -> t_cols (abs h d) !! (KFloat, c) = Some col -> col <> [] ->
  exists s, vec_mem d c h = Ok (s, h) /\ sl_vals h s = col /\
    forall i v, sl_wr s i v h = set_cell KFloat d c (Z.of_nat i) v h.
Proof. exact C110_shared_main. Qed.
Print Assumptions C110_shared.
(** VecDense on other views is VecDenseCopy. *)
Theorem C110_viewed : forall (rt : GoRT) h d c, d_viewed d = true -> is_Some (t_cols (abs h d) !! (KFloat, c)) ->
  vec_mem d c h = vec_copy d c h.
Proof. exact C110_viewed_main. Qed.
Print Assumptions C110_viewed.
(** Without rows, or without the column, both panic. *)
Theorem C110_panics : forall (rt : GoRT) h d c, wf h d ->
  (t_cols (abs h d) !! (KFloat, c) = None \/ num_rows d = 0) -> vec_mem d c h = Panic /\ vec_copy d c h = Panic.
Proof. exact C110_panics_main. Qed.
Print Assumptions C110_panics.
Example C110_case : wf ex_h ex_d /\ d_viewed ex_d = false /\ is_Some (t_cols (abs ex_h ex_d) !! (KFloat, "b")) /\
  vec_copy ex_d "b" ex_h = Ok vd_copy /\ length (sl_vals vd_copy.2 vd_copy.1) = 4 /\
  match set_vec vd_copy.1 [(0, VFloat f64_one); (3, VFloat f64_one)] vd_copy.2 with Ok (_, h2) => sl_vals h2 vd_copy.1 !! 3 = Some (VFloat f64_one) | Panic => False end.
Proof. exact C110_check_main. Qed.

(** C111 An access made before any number of writes through accesses, Overwrite
    functions on existing columns and vectors is as good as one made after them. *)
Theorem C111_live : forall (rt : GoRT) ws k d c s row h h', Forall (overwrites_existing h) ws ->
  access k d c h = Ok (s, h) -> call_writes ws h = Ok (tt, h') ->
  acc_get d s row h' = get_cell k d c row h' /\ forall v, acc_set d s row v h' = set_cell k d c row v h'.
Proof. exact C111_live_main. Qed.
Print Assumptions C111_live.
Example C111_case : Forall (overwrites_existing ex_vh) vd_ws /\ access KInt ex_v "a" ex_vh = Ok (vd_acc, ex_vh) /\
  let h' := run_unit (call_writes (rt := ex_rt) vd_ws) ex_vh in
  call_writes (rt := ex_rt) vd_ws ex_vh = Ok (tt, h') /\ acc_get ex_v vd_acc 0 h' <> acc_get ex_v vd_acc 0 ex_vh.
Proof. exact C111_check_main. Qed.
(** But not after Unshare. *)
Theorem C111_stale_refuted : exists (rt : GoRT) h d k c s r' h1 h2 v, wf h d /\ access k d c h = Ok (s, h) /\
  unshare (d_raw d) [] h = Ok (r', h1) /\ acc_set d s 0 v h1 = Ok (tt, h2) /\
  t_cell (abs h2 (set_raw d r')) (k, c) 0 <> Some v /\ t_cell (abs h2 d) (k, c) 0 = Some v.
Proof. exact C111_stale_refuted_main. Qed.
Print Assumptions C111_stale_refuted.
