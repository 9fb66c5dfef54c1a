(** SliceView beyond the documented bounds and the encoding of copies: more on
    C66 and C67. *)
From Verif Require Import P_SliceMain P_Check.

(** C66 Exactly when SliceView panics: reversed slices check their bounds, the
    others only the capacity. *)
Theorem C66_slice_view_panics_partial : forall (rt : GoRT) (h : heap) (d : dframe) (from to : Z),
  wf h d ->
  let n := Z.of_nat (num_rows d) in
  let from' := if decide (from < 0)%Z then (from + (n + 1))%Z else from in
  let to' := if decide (to < 0)%Z then (to + (n + 1))%Z else to in
  (* reversed: as documented *)
  ((to' < from')%Z -> slice_view d from to h = Panic <-> (to' < 0 \/ n < from')%Z) /\
  (* index view: what has been cut off before comes back *)
  ((from' <= to')%Z -> by_index h d (to' - from') -> slice_view d from to h = Panic <-> (from' < 0 \/ index_cap d < to')%Z) /\
  (* columns cut; without columns negative bounds are accepted too *)
  ((from' <= to')%Z -> ~ by_index h d (to' - from') ->
    slice_view d from to h = Panic <-> (index_cap d < to' - from')%Z \/ ~ columns_fit h d from' to').
Proof. exact C66_slice_view_panics_partial_main. Qed.
Print Assumptions C66_slice_view_panics_partial.
Theorem C66_within_bounds : forall (rt : GoRT) (h : heap) (d : dframe) (from to : Z),
  wf h d -> (0 <= from <= Z.of_nat (num_rows d))%Z -> (0 <= to <= Z.of_nat (num_rows d))%Z -> slice_view d from to h <> Panic.
Proof. exact C66_within_bounds_main. Qed.
Print Assumptions C66_within_bounds.
Theorem C66_negative_refuted : exists (h : heap) (d v : dframe) (h' : heap),
  wf h d /\ num_rows d = 5 /\ slice_view (rt := ex_rt) d (-9) (-7) h = Ok (v, h') /\ num_rows v = 2.
Proof. exact C66_negative_refuted_main. Qed.
Print Assumptions C66_negative_refuted.
Section cases.
Local Existing Instance ex_rt.
(** The dataframe has four rows, ex_v is an index view of three. *)
Example C66_case : wf ex_h ex_d /\ by_index ex_h ex_d 2 /\ slice_view ex_d 5 0 ex_h = Panic /\ slice_view ex_d (-6) 1 ex_h = Panic /\
  slice_view ex_d 1 3 ex_h <> Panic /\ wf ex_vh ex_v /\ d_viewed ex_v = true /\ slice_view ex_v 0 (index_cap ex_v + 1) ex_vh = Panic.
Proof. exact C66_check_main. Qed.
End cases.

(** C67 The copies have no encoding; everything else is kept. *)
Theorem C67_copies_partial : forall (rt : GoRT) (h : heap) (d : dframe), wf h d ->
  exists s h1 c h2, shallow_copy d h = Ok (s, h1) /\ copy_df d h = Ok (c, h2) /\
    (* all but the encoding is kept *)
    (forall t, t = abs h1 s \/ t = abs h2 c -> t_rows t = t_rows (abs h d) /\ t_cols t = t_cols (abs h d) /\
       t_strs t = t_strs (abs h d) /\ t_cpu t = t_cpu (abs h d) /\ t_enc t = None) /\
    (* so it is kept if there is none *)
    (abs h1 s = abs h d <-> t_enc (abs h d) = None) /\ (abs h2 c = abs h d <-> t_enc (abs h d) = None).
Proof. exact C67_copies_partial_main. Qed.
Print Assumptions C67_copies_partial.
