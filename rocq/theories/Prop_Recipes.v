(** The loops of the documentation: C105, C106. *)
From Verif Require Import M_Recipes P_RecipesMain.
From stdpp Require Import strings list.
From Verif Require Import Spec_Recipes Spec_NoCopy P_Base P_Check.

(** C105 Overwrite and the loop of Set in its comment do the same to an existing
    column of a dataframe with rows if there are as many values as rows, ... *)
Theorem C105_same : forall (rt : GoRT) k (strs : bool) h d c col vs, wf h d ->
  t_cols (abs h d) !! (k, c) = Some col -> num_rows d <> 0 ->
  Forall (fun v => kind_of v = k) vs -> length vs = num_rows d ->
  exists h', set_loop k d c vs h = Ok (tt, h') /\ overwrite k strs d c vs h = Ok (d, h').
Proof. exact C105_same_main. Qed.
Print Assumptions C105_same.
(** ... but not for fewer values, where only the loop works and writes the first rows, ... *)
Theorem C105_shorter : forall (rt : GoRT) k (strs : bool) h d c col vs, wf h d ->
  t_cols (abs h d) !! (k, c) = Some col -> Forall (fun v => kind_of v = k) vs -> length vs < num_rows d ->
  overwrite k strs d c vs h = Panic /\
  exists h', set_loop k d c vs h = Ok (tt, h') /\ wf h' d /\
    (NoDup (inds d) -> t_cols (abs h' d) !! (k, c) = Some (vs ++ drop (length vs) col)).
Proof. exact C105_shorter_main. Qed.
Print Assumptions C105_shorter.
(** ... nor for more, where only Overwrite works and ignores the rest. *)
Theorem C105_longer : forall (rt : GoRT) k (strs : bool) h d c col vs, wf h d ->
  t_cols (abs h d) !! (k, c) = Some col -> num_rows d <> 0 -> Forall (fun v => kind_of v = k) vs ->
  num_rows d < length vs ->
  set_loop k d c vs h = Panic /\
  overwrite k strs d c vs h = overwrite k strs d c (take (num_rows d) vs) h /\
  overwrite k strs d c vs h <> Panic.
Proof. exact C105_longer_main. Qed.
Print Assumptions C105_longer.
Theorem C105_doc_refuted : exists (rt : GoRT) h d c vs ws, wf h d /\ is_Some (t_cols (abs h d) !! (KInt, c)) /\
  set_loop KInt d c vs h <> Panic /\ overwrite KInt false d c vs h = Panic /\
  set_loop KInt d c ws h = Panic /\ overwrite KInt false d c ws h <> Panic.
Proof. exact C105_doc_refuted_main. Qed.
Print Assumptions C105_doc_refuted.
(** The loop needs the column. *)
Theorem C105_missing : forall k h d c vs, t_cols (abs h d) !! (k, c) = None -> set_loop k d c vs h = Panic.
Proof. exact C105_missing_main. Qed.
Print Assumptions C105_missing.
(** The loop that sets each value to a function of itself applies the function as
    often as the record is shown. *)
Theorem C105_map : forall h d k c col f, wf h d -> t_cols (abs h d) !! (k, c) = Some col ->
  (forall v, kind_of v = k -> kind_of (f v) = k) ->
  exists h', map_loop k d c f h = Ok (tt, h') /\
    (forall d2, wf h d2 -> wf h' d2 /\ same_shape (abs h d2) (abs h' d2) /\
      forall k2 j a, cell_of h d2 k2 j = Some a ->
      t_cell (abs h' d2) k2 j = Nat.iter (times_at h d (k, c) a) f <$> t_cell (abs h d2) k2 j) /\
    (NoDup (inds d) -> t_cols (abs h' d) !! (k, c) = Some (f <$> col)).
Proof. exact C105_map_main. Qed.
Print Assumptions C105_map.
Example C105_case : wf ten_rows.2 ten_rows.1 /\ wf twice_shown.2 twice_shown.1 /\
  t_cols (abs after_twice twice_shown.1) !! (KInt, "age") = Some [VInt 160; VInt 24; VInt 160] /\
  t_cols (abs after_twice ten_rows.1) !! (KInt, "age") = Some [VInt 24; VInt 160; VInt 18; VInt 7; VInt 33] /\
  NoDup (inds ten_rows.1) /\ num_rows ten_rows.1 = 5.
Proof. exact C105_check_main. Qed.

(** C106 Both ways of filtering give the rows that satisfy the condition, in order,
    and change no table that is there, whether masks are recycled or not. *)
Theorem C106_mask : forall (rt : GoRT) h d k c col p, wf h d -> t_cols (abs h d) !! (k, c) = Some col ->
  exists v h', filter_mask k d c p h = Ok (v, h') /\ wf h' v /\
    abs h' v = t_select (rows_where p col) (abs h d) /\ preserved h h'.
Proof. exact C106_mask_main. Qed.
Print Assumptions C106_mask.
Theorem C106_index : forall (rt : GoRT) h d k c col p, wf h d -> t_cols (abs h d) !! (k, c) = Some col ->
  exists v h', filter_index k d c p h = Ok (v, h') /\ wf h' v /\
    abs h' v = t_select (rows_where p col) (abs h d) /\ preserved h h'.
Proof. exact C106_index_main. Qed.
Print Assumptions C106_index.
Theorem C106_zero_mask : forall (rt : GoRT) h d (q : nat -> bool), wf h d ->
  exists v h', zero_mask_view d q h = Ok (v, h') /\ wf h' v /\
    abs h' v = t_select (filter (fun i => q i = true) (seq 0 (num_rows d))) (abs h d) /\ preserved h h'.
Proof. exact C106_zero_mask_main. Qed.
Print Assumptions C106_zero_mask.
(** With ThreadSafeMasking, a mask has no place in common with an earlier one and
    writing in it does not change earlier ones. *)
Theorem C106_fresh : forall h d m h', wf h d -> d_mts d = true -> empty_mask d h = Ok (m, h') ->
  s_len m = num_rows d /\ (forall m0, mask_ok h m0 -> ~ overlap m0 m) /\
  forall i b h2, msl_wr m i b h' = Ok (tt, h2) -> forall m0, mask_ok h m0 -> s_len m0 <> 0 -> msl_vals h2 m0 = msl_vals h m0.
Proof. exact C106_fresh_main. Qed.
Print Assumptions C106_fresh.
(** Views made afterwards behave the same (those without rows need not). *)
Theorem C106_inherited : forall (rt : GoRT), forall d c h vs h', run_view d c h = Ok (vs, h') ->
  forall v, v ∈ vs -> d_mts v = d_mts d \/ num_rows v = 0.
Proof. intros rt. exact C106_inherited_main. Qed.
Print Assumptions C106_inherited.
(** Without it, masks are the same over and over, also those of a view ... *)
Theorem C106_recycled : forall h d m h', wf h d -> d_mts d = false -> num_rows d <> 0 -> empty_mask d h = Ok (m, h') ->
  h' = h /\ s_arr m = s_arr (d_mask d) /\ s_off m = s_off (d_mask d) /\ empty_mask d h' = Ok (m, h').
Proof. exact C106_recycled_main. Qed.
Print Assumptions C106_recycled.
(** ... so what is written in one changes the other. *)
Theorem C106_shared_refuted : exists h d m1 m2 h2, wf h d /\ d_mts d = false /\
  empty_mask d h = Ok (m1, h) /\ empty_mask (view d) h = Ok (m2, h) /\ overlap m1 m2 /\
  msl_wr m2 0 true h = Ok (tt, h2) /\ msl_vals h2 m1 <> msl_vals h m1.
Proof. exact C106_shared_refuted_main. Qed.
Print Assumptions C106_shared_refuted.
Example C106_case : wf ten_rows.2 ten_rows.1 /\
  col_of (KObj, "name") (filter_mask KInt ten_rows.1 "age" adult) ten_rows.2 = Some [VObj (OStr "b"); VObj (OStr "c"); VObj (OStr "e")] /\
  col_of (KObj, "name") (filter_index (rt := ex_rt) KInt ten_rows.1 "age" adult) ten_rows.2 = Some [VObj (OStr "b"); VObj (OStr "c"); VObj (OStr "e")] /\
  col_of (KObj, "name") (zero_mask_view ten_rows.1 (fun i => bool_decide (i mod 3 = 0))) ten_rows.2 = Some [VObj (OStr "a"); VObj (OStr "d")] /\
  d_mts ten_rows.1 = false /\ d_mts (thread_safe_masking ten_rows.1 true) = true.
Proof. exact C106_check_main. Qed.
Example C106_two_masks_case : option_map fst (match two_masks ten_rows.2 with Ok p => Some p | Panic => None end) =
  Some ([false; true; true; false; true], [true; false; false; true; false]).
Proof. exact C106_two_masks_check_main. Qed.
