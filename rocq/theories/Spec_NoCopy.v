(** The functions README.md lists as view-returning (README.md:15-34), and how
    much memory an operation allocates for the cells of columns (C104). *)
From Verif Require Import M_Frame.
From stdpp Require Import strings list.

Inductive view_call :=
| VView | VIndex (l : list Z) | VSlice (from to : Z) | VMask (mask : list bool) | VColumns (cols : list string)
| VShuffle (rnd : nat -> nat) | VSample (rnd : nat -> nat) (n : Z) (replacement : bool)
| VSplitN (n : Z) | VSplit (b : Z) | VTrainTest (ratio : f64)
| VSorted (asort : list f64 -> list nat) (c : string)
| VTop (asort : list f64 -> list nat) (c : string) (n : Z) (ascending sorted : bool)
| VReverse | VReset | VShallow | VConcat (others : list dframe).

Section calls.
Context {rt : GoRT}.
Definition one (m : M dframe) : M (list dframe) := let* v := m in ret [v].
Definition run_view (d : dframe) (c : view_call) : M (list dframe) :=
  match c with
  | VView => ret [view d]
  | VIndex l => one (index_view d l)
  | VSlice a b => one (slice_view d a b)
  | VMask m => one (mask_view d m)
  | VColumns cs => one (column_view d cs)
  | VShuffle rnd => one (shuffle_view rnd d)
  | VSample rnd n r => one (sample_view rnd d n r)
  | VSplitN n => split_n_view d n
  | VSplit b => split_view d b
  | VTrainTest r => let* p := split_train_test d r in ret [p.1; p.2]
  | VSorted f c => one (sorted_view f d c)
  | VTop f c n a s => one (top_view f d c n a s)
  | VReverse => ret [reverse_view d]
  | VReset => ret [reset_index_view d]
  | VShallow => one (shallow_copy d)
  | VConcat l => let* o := column_concat_view (d :: l) in ret (match o with Some v => [v] | None => [] end)
  end.
End calls.

(** All cells of columns that were ever allocated. The copy of one column that
    SortedView makes for sorting (view.go:251-280) is a value in the model and not
    counted. *)
Definition total_cells (h : heap) : nat := sum_list (length <$> h_arr h).
(** The columns of [v] are stored where columns with the same names were before. *)
Definition old_storage (h h' : heap) (v : dframe) : Prop :=
  forall k s, mp h' (r_maps (d_raw v)) !! k = Some s ->
  exists l s0, mp h l !! k = Some s0 /\ s_arr s = s_arr s0.
