(** The backing data: SharedIndex and DataFrameInternals. C109. *)
From Verif Require Import M_Internals P_InternalsMain.
From stdpp Require Import strings list.
From Verif Require Import P_Base P_Check.

(** C109 Get(row) is the value at SharedIndex(row) of IntData, FloatData etc. *)
Theorem C109_get : forall (rt : GoRT) h d k c row v h', wf h d -> get_cell k d c row h = Ok (v, h') ->
  exists j s, shared_index d row = Ok j /\ get_indices d !! Z.to_nat row = Some j /\
    col_data k d c h = Ok (s, h) /\ sl_vals h s !! j = Some v /\ j < s_len s.
Proof. exact C109_get_main. Qed.
Print Assumptions C109_get.
(** Set(row, v) is an assignment to that place. *)
Theorem C109_set : forall (rt : GoRT) h d k c row j s v, wf h d -> is_Some (t_cols (abs h d) !! (k, c)) ->
  shared_index d row = Ok j -> col_data k d c h = Ok (s, h) -> set_cell k d c row v h = sl_wr s j v h.
Proof. exact C109_set_main. Qed.
Print Assumptions C109_set.
(** What is assigned there is what all dataframes with this data show in the rows
    that have this index, and in no other. *)
Theorem C109_seen : forall (rt : GoRT) h d k c j s v h' d' i, wf h d -> is_Some (t_cols (abs h d) !! (k, c)) ->
  col_data k d c h = Ok (s, h) -> kind_of v = k -> sl_wr s j v h = Ok (tt, h') ->
  wf h d' -> col_data k d' c h = Ok (s, h) -> is_Some (t_cols (abs h d') !! (k, c)) ->
  t_cell (abs h' d') (k, c) i = (if decide (get_indices d' !! i = Some j) then Some v else t_cell (abs h d') (k, c) i).
Proof. exact C109_seen_main. Qed.
Print Assumptions C109_seen.
Example C109_case : wf ex_vh ex_v /\ is_Some (t_cols (abs ex_vh ex_v) !! (KInt, "a")) /\
  col_data KInt ex_v "a" ex_vh = Ok (in_s, ex_vh) /\ sl_wr in_s 2 (VInt 50) ex_vh = Ok (tt, in_h) /\
  2 ∈ get_indices ex_v /\ t_cols (abs ex_vh ex_v) !! (KInt, "zz") = None.
Proof. exact C109_check_main. Qed.
(** A missing column gives a nil slice here, where access functions panic. *)
Theorem C109_missing : forall (rt : GoRT) h d k c, t_cols (abs h d) !! (k, c) = None ->
  col_data k d c h = Ok (nil_slice, h) /\ sl_vals h nil_slice = [] /\ access k d c h = Panic.
Proof. exact C109_missing_main. Qed.
Print Assumptions C109_missing.
(** EmptyMask is the beginning of GetMask, unless masking is thread-safe. *)
Theorem C109_mask : forall (rt : GoRT) h d, wf h d -> d_mts d = false ->
  exists s, empty_mask d h = Ok (s, h) /\ s_arr s = s_arr (get_mask d) /\ s_off s = s_off (get_mask d) /\ s_len s = num_rows d /\
    num_rows d <= s_len (get_mask d).
Proof. exact C109_mask_main. Qed.
Print Assumptions C109_mask.
