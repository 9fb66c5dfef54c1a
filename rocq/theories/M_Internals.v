(** Access to the backing data: ColumnAccess.SharedIndex
    (dataframe/column_access.go:117-119) and DataFrameInternals
    (dataframe/dataframe_internals.go:7-33). *)
From Verif Require Import M_Frame.
From stdpp Require Import strings list.

(** SharedIndex (column_access.go:117-119). *)
Definition shared_index (d : dframe) (row : Z) : res nat := idx (inds d) row.
(** GetMask (dataframe_internals.go:11-13) and GetIndices
    (dataframe_internals.go:15-17). *)
Definition get_mask (d : dframe) : slice := d_mask d.
Definition get_indices (d : dframe) : list nat := inds d.
(** FloatData, IntData, BoolData and ObjectData (dataframe_internals.go:19-33): a
    map gives a nil slice for a missing key. *)
Definition col_data (k : kind) (d : dframe) (c : string) : M slice :=
  let* m := get_mp (r_maps (d_raw d)) in ret (default nil_slice (m !! (k, c))).
