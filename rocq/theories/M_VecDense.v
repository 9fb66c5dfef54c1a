(** VecDenseCopy and VecDense (dataframe/column_access.go:121-142) with the memory
    of the vectors. A vector of gonum 0.8.2 made by mat.NewVecDense is the slice it
    is given; an empty one is refused. *)
From Verif Require Import M_Frame.
From stdpp Require Import strings list.

Definition new_vec (s : slice) : M slice := if decide (s_len s = 0) then panic else ret s.
Definition vec_copy (d : dframe) (c : string) : M slice :=
  let* s := access KFloat d c in
  let* vs := gather s (inds d) in
  let* data := lit_slice vs in new_vec data.
Definition vec_mem (d : dframe) (c : string) : M slice :=
  let* s := access KFloat d c in
  if d_viewed d then vec_copy d c else new_vec s.
(** SetVec, any number of times. *)
Definition set_vec (s : slice) (ws : list (nat * val)) : M unit := forM ws (fun w => sl_wr s w.1 w.2).
