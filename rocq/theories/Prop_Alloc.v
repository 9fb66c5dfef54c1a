(** Drop and Alloc*: the property theorems C79 and C80. *)
From Verif Require Import P_AllocMain P_Check.

(** C79 Drop. Dataframes that share neither the maps nor the string header
    keep everything. *)
Theorem C79_drop : forall (rt : GoRT) (h : heap) (d : dframe) (cols : list string), wf h d ->
  exists h', drop_cols (d_raw d) cols h = Ok (tt, h') /\ wf h' d /\ num_rows d = t_rows (abs h' d) /\
    (forall k c, t_cols (abs h' d) !! (k, c) = if decide (c ∈ cols) then None else t_cols (abs h d) !! (k, c)) /\
    (forall c, c ∈ t_strs (abs h' d) <-> c ∈ t_strs (abs h d) /\ c ∉ cols) /\
    (forall d0, wf h d0 -> wf h' d0) /\
    (forall d0, r_maps (d_raw d0) <> r_maps (d_raw d) -> r_strs (d_raw d0) <> r_strs (d_raw d) -> abs h' d0 = abs h d0).
Proof. exact C79_drop_main. Qed.
Print Assumptions C79_drop.
Section cases.
Local Existing Instance ex_rt.
Example C79_case : wf ex_h ex_d /\ drop_cols (d_raw ex_d) ["a"; "s"; "zz"] ex_h = Ok (tt, dr_h) /\
  is_Some (show KInt "a" ex_h ex_d) /\ show KInt "a" dr_h ex_d = None /\ is_Some (show KObj "s" ex_h ex_d) /\ show KObj "s" dr_h ex_d = None /\
  show KFloat "b" dr_h ex_d = show KFloat "b" ex_h ex_d /\ "s" ∈ t_strs (abs ex_h ex_d).
Proof. exact C79_check_main. Qed.
End cases.

(** C80 AllocInts, AllocFloats, AllocBools, AllocObjects and AllocStrings, if
    there is a column or there are no rows. *)
Theorem C80_alloc_partial : forall (rt : GoRT) (h : heap) (d : dframe) (k : kind) (cols : list string), wf h d ->
  t_cols (abs h d) <> ∅ \/ num_rows d = 0 ->
  exists r' h', alloc_cols k (d_raw d) cols h = Ok (r', h') /\ wf h' (set_raw d r') /\
    t_rows (abs h' (set_raw d r')) = num_rows d /\ t_strs (abs h' (set_raw d r')) = t_strs (abs h d) /\
    (forall k' c, t_cols (abs h' (set_raw d r')) !! (k', c) =
       if decide (k' = k /\ c ∈ cols) then Some (replicate (num_rows d) (zero_of k)) else t_cols (abs h d) !! (k', c)).
Proof. exact C80_alloc_partial_main. Qed.
Print Assumptions C80_alloc_partial.
Theorem C80_alloc_strings_partial : forall (rt : GoRT) (h : heap) (d : dframe) (cols : list string), wf h d ->
  t_cols (abs h d) <> ∅ \/ num_rows d = 0 ->
  exists r' h', alloc_strings (d_raw d) cols h = Ok (r', h') /\ wf h' (set_raw d r') /\
    t_rows (abs h' (set_raw d r')) = num_rows d /\
    (forall c, c ∈ t_strs (abs h' (set_raw d r')) <-> c ∈ t_strs (abs h d) \/ c ∈ cols) /\
    (forall k' c, t_cols (abs h' (set_raw d r')) !! (k', c) =
       if decide (k' = KObj /\ c ∈ cols) then Some (replicate (num_rows d) (VObj ONil)) else t_cols (abs h d) !! (k', c)).
Proof. exact C80_alloc_strings_partial_main. Qed.
Print Assumptions C80_alloc_strings_partial.
(** Otherwise the new column is too short. *)
Theorem C80_no_columns_refuted : exists (rt : GoRT) h d r' h', wf h d /\ num_rows d = 4 /\
  alloc_cols KInt (d_raw d) ["n"] h = Ok (r', h') /\ t_cols (abs h' (set_raw d r')) !! (KInt, "n") = Some [].
Proof. exact C80_no_columns_refuted_main. Qed.
Print Assumptions C80_no_columns_refuted.
Section cases2.
Local Existing Instance ex_rt.
Example C80_case : wf ex_vh ex_v /\ t_cols (abs ex_vh ex_v) <> ∅ /\ alloc_cols KFloat (d_raw ex_v) ["a"; "n"] ex_vh = Ok al /\
  show KFloat "n" al.2 (set_raw ex_v al.1) = Some (replicate 3 (VFloat f64_zero)) /\
  show KInt "a" al.2 (set_raw ex_v al.1) = Some [VInt 9; VInt 5; VInt 9].
Proof. exact C80_check_main. Qed.
End cases2.
