(** What the documented loops are for. *)
From Verif Require Import P_Write.
From stdpp Require Import strings list.

(** The rows whose value in a column satisfies [p], in order. *)
Definition rows_where (p : val -> bool) (col : list val) : list nat :=
  filter (fun i => p <$> col !! i = Some true) (seq 0 (length col)).
(** How many rows of column [k] of [d] are stored at [a]. *)
Definition times_at (h : heap) (d : dframe) (k : key) (a : nat * nat) : nat :=
  length (filter (fun j => cell_of h d k j = Some a) (seq 0 (num_rows d))).
(** Two masks share a place. *)
Definition overlap (m1 m2 : slice) : Prop :=
  s_arr m1 = s_arr m2 /\ exists i j, i < s_len m1 /\ j < s_len m2 /\ s_off m1 + i = s_off m2 + j.
