(** Rows stay together: the property theorem C115. *)
From Coq Require Import Reals.
From Flocq Require Raux.
From Verif Require P_Float.
From Verif Require Import P_RowsMain.
Open Scope nat_scope.

(** C115 Whatever views, copies, parts and concatenations are made of a
    dataframe, each row shows values of one row of it. The relation [derived]
    lists the operations; slices have bounds within the rows. *)
Theorem C115_rows : forall (rt : GoRT) (h : heap) (d : dframe) (h' : heap) (v : dframe),
  wf h d -> derived rt h d h' v ->
  wf h' v /\ forall j, j < num_rows v -> exists i, i < num_rows d /\
    forall k col, t_cols (abs h' v) !! k = Some col -> exists x, col !! j = Some x /\ t_cell (abs h d) k i = Some x.
Proof. exact C115_rows_main. Qed.
Print Assumptions C115_rows.
(** Values written on the way stay beside the values of their rows. *)
Theorem C115_written : forall (rt : GoRT) (h : heap) (d : dframe) (h1 : heap) (v : dframe) (h2 h3 : heap) (v2 w : dframe) (k : kind) (c : string) (vals : list val),
  wf h d -> derived rt h d h1 v -> NoDup (inds v) -> t_cols (abs h1 v) <> ∅ -> t_cols (abs h1 v) !! (k, c) = None ->
  Forall (fun v => kind_of v = k) vals -> overwrite k false v c vals h1 = Ok (v2, h2) -> derived rt h2 v2 h3 w ->
  forall j, j < num_rows w -> exists i m, i < num_rows d /\ m < num_rows v /\
    (forall k' col, k' <> (k, c) -> t_cols (abs h3 w) !! k' = Some col ->
       exists x, col !! j = Some x /\ t_cell (abs h1 v) k' m = Some x /\ t_cell (abs h d) k' i = Some x) /\
    (forall col, t_cols (abs h3 w) !! (k, c) = Some col -> exists x, col !! j = Some x /\ vals !! m = Some x).
Proof. exact C115_written_main. Qed.
Print Assumptions C115_written.
Local Existing Instance ex_rt.
Example C115_case : wf ex_h ex_d /\ derived ex_rt ex_h ex_d wr2.2 wr2.1 /\ NoDup (inds wr2.1) /\
  t_cols (abs wr2.2 wr2.1) <> ∅ /\ t_cols (abs wr2.2 wr2.1) !! (KInt, "p") = None /\
  overwrite KInt false wr2.1 "p" [VInt 10; VInt 20; VInt 30] wr2.2 = Ok (wr3.1, wr3.2) /\ derived ex_rt wr3.2 wr3.1 wr4.2 wr4.1 /\
  show KInt "a" wr2.2 wr2.1 = Some [VInt 9; VInt 3; VInt 5] /\
  show KInt "a" wr4.2 wr4.1 = Some [VInt 5; VInt 9] /\ show KInt "p" wr4.2 wr4.1 = Some [VInt 30; VInt 10].
Proof. exact C115_check_main. Qed.
