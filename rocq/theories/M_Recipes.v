(** The loops that the documentation gives to users (dataframe/README.md:68-77,
    156-204; dataframe.go:40-84; inplace.go:80-88). *)
From Verif Require Import M_Frame.
From stdpp Require Import strings list.

(** The loop that OverwriteInts and the like are said to be equivalent to
    (inplace.go:83-87, dataframe/README.md:196-202):
      access := df.Ints(colName)
      for i := 0; i < len(values); i++ { access.Set(i, values[i]) } *)
Fixpoint set_from (d : dframe) (s : slice) (i : nat) (vs : list val) : M unit :=
  match vs with
  | [] => ret tt
  | v :: vs => acc_set d s (Z.of_nat i) v ;;* set_from d s (S i) vs
  end.
Definition set_loop (k : kind) (d : dframe) (c : string) (vs : list val) : M unit :=
  let* s := access k d c in set_from d s 0 vs.

(** "Option 1: ColumnAccess" (dataframe/README.md:70-77):
      height := df.Floats("height")
      for i := 0; i < height.Size(); i++ { height.Set(i, f(height.Get(i))) }
    Size() is the number of rows (column_access.go:110-112, 147-194). *)
Definition map_loop (k : kind) (d : dframe) (c : string) (f : val -> val) : M unit :=
  let* s := access k d c in
  forM (seq 0 (num_rows d)) (fun i =>
    let* v := acc_get d s (Z.of_nat i) in acc_set d s (Z.of_nat i) (f v)).

Section views.
Context {rt : GoRT}.
(** Filtering with MaskView (dataframe/README.md:161-169). [mask[i] = p(col.Get(i))]. *)
Definition fill_mask (k : kind) (d : dframe) (c : string) (p : val -> bool) (m : slice) : M unit :=
  let* s := access k d c in
  forM (seq 0 (num_rows d)) (fun i =>
    let* v := acc_get d s (Z.of_nat i) in msl_wr m i (p v)).
Definition read_mask (m : slice) : M (list bool) := fun h => Ok (msl_vals h m, h).
Definition filter_mask (k : kind) (d : dframe) (c : string) (p : val -> bool) : M dframe :=
  let* m := empty_mask d in
  fill_mask k d c p m ;;*
  let* bs := read_mask m in mask_view d bs.

(** Filtering with IndexView (dataframe/README.md:173-183). *)
Fixpoint collect (d : dframe) (s : slice) (p : val -> bool) (is : list nat) : M (list Z) :=
  match is with
  | [] => ret []
  | i :: is =>
      let* v := acc_get d s (Z.of_nat i) in
      let* r := collect d s p is in
      ret (if p v then Z.of_nat i :: r else r)
  end.
Definition filter_index (k : kind) (d : dframe) (c : string) (p : val -> bool) : M dframe :=
  let* s := access k d c in
  let* l := collect d s p (seq 0 (num_rows d)) in
  index_view d l.

(** The use of ZeroMask in its comment (dataframe.go:43-49), with any condition on
    the number of the row. *)
Definition mark_rows (d : dframe) (q : nat -> bool) (m : slice) : M unit :=
  forM (seq 0 (num_rows d)) (fun i => if q i then msl_wr m i true else ret tt).
Definition zero_mask_view (d : dframe) (q : nat -> bool) : M dframe :=
  let* m := zero_mask d in
  mark_rows d q m ;;*
  let* bs := read_mask m in mask_view d bs.
End views.
