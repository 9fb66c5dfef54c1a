(** Drop and Alloc*: C79, C80. *)
From Verif Require Import P_Auto2 P_WriteMain P_Check.
From Verif Require Export P_Struct3.

(** ** Drop *)
Definition elsewhere (d : dframe) (h h' : heap) : Prop := h_arr h' = h_arr h /\
  (forall l, l <> r_maps (d_raw d) -> mp h' l = mp h l) /\ (forall o, o <> r_strs (d_raw d) -> ostr h' o = ostr h o).
Lemma drop1_elsewhere d c h h' : drop1 (d_raw d) c h = Ok (tt, h') -> elsewhere d h h'.
Proof.
  unfold drop1. intros E. apply bind_inv in E as ([] & h1 & E1 & E). apply bind_inv in E as ([] & h2 & E2 & E). cbn in E. injection E as <-.
  assert (H1 : h_arr h1 = h_arr h /\ h_map h1 = h_map h /\ h_str h1 = h_str h). { unfold shr_remove in E1. destruct (r_shared _); injection E1 as <-; done. }
  destruct H1 as (A1 & M1 & S1).
  assert (H2 : h_arr h2 = h_arr h1 /\ h_map h2 = h_map h1 /\ forall o, o <> r_strs (d_raw d) -> ostr h2 o = ostr h1 o).
  { unfold str_remove in E2. destruct (r_strs _) as [l|] eqn:El; injection E2 as <-; [|done]. split; [done|]. split; [done|].
    intros [l'|] Hl; [|done]. cbn. unfold str. cbn. rewrite list_lookup_insert_ne by congruence. done. }
  destruct H2 as (A2 & M2 & S2). split; [cbn; congruence|]. split.
  - intros l Hl. unfold mp. cbn. rewrite list_lookup_insert_ne by done. by rewrite M2, M1.
  - intros o Ho. change (ostr h2 o = ostr h o). rewrite S2 by done. unfold ostr, str. by rewrite S1.
Qed.
Lemma drop_elsewhere d cols : forall h h', drop_cols (d_raw d) cols h = Ok (tt, h') -> elsewhere d h h'.
Proof.
  change (drop_cols (d_raw d) cols) with (forM cols (drop1 (d_raw d))). induction cols as [|c cols IH]; intros h h' E.
  { injection E as <-. done. }
  cbn [forM] in E. apply bind_inv in E as ([] & h1 & E1 & E). destruct (drop1_elsewhere d c h h1 E1) as (A & B & C).
  destruct (IH h1 h' E) as (A' & B' & C'). split; [congruence|]. split.
  - intros l Hl. by rewrite B', B.
  - intros o Ho. by rewrite C', C.
Qed.

Lemma C79_drop_main (rt : GoRT) (h : heap) (d : dframe) (cols : list string) : wf h d ->
  exists h', drop_cols (d_raw d) cols h = Ok (tt, h') /\ wf h' d /\ num_rows d = t_rows (abs h' d) /\
    (forall k c, t_cols (abs h' d) !! (k, c) = if decide (c ∈ cols) then None else t_cols (abs h d) !! (k, c)) /\
    (forall c, c ∈ t_strs (abs h' d) <-> c ∈ t_strs (abs h d) /\ c ∉ cols) /\
    (forall d0, wf h d0 -> wf h' d0) /\
    (forall d0, r_maps (d_raw d0) <> r_maps (d_raw d) -> r_strs (d_raw d0) <> r_strs (d_raw d) -> abs h' d0 = abs h d0).
Proof.
  intros W. destruct (drop_spec h d cols W) as (h' & E & W' & A & S). exists h'. split; [done|]. split; [done|]. split; [done|].
  rewrite A. split; [|split; [|split; [exact S|]]].
  - intros k c. unfold t_drop. cbn [t_cols]. rewrite map_filter_lookup. destruct (t_cols (abs h d) !! (k, c)) as [x|].
    + cbn. destruct (decide (c ∈ cols)); [by rewrite option_guard_False by (cbn; tauto)|by rewrite option_guard_True].
    + cbn. by destruct (decide _).
  - intros c. unfold t_drop. cbn [t_strs]. rewrite elem_of_difference, elem_of_list_to_set. done.
  - intros d0 H1 H2. destruct (drop_elsewhere d cols h h' E) as (A1 & A2 & A3). unfold abs. rewrite A2, A3 by done. f_equal.
    apply map_fmap_ext. intros k s _. unfold sl_vals, arr. by rewrite A1.
Qed.

(** ** Alloc *)
Lemma C80_alloc_partial_main (rt : GoRT) (h : heap) (d : dframe) (k : kind) (cols : list string) : wf h d ->
  t_cols (abs h d) <> ∅ \/ num_rows d = 0 ->
  exists r' h', alloc_cols k (d_raw d) cols h = Ok (r', h') /\ wf h' (set_raw d r') /\
    t_rows (abs h' (set_raw d r')) = num_rows d /\ t_strs (abs h' (set_raw d r')) = t_strs (abs h d) /\
    (forall k' c, t_cols (abs h' (set_raw d r')) !! (k', c) =
       if decide (k' = k /\ c ∈ cols) then Some (replicate (num_rows d) (zero_of k)) else t_cols (abs h d) !! (k', c)).
Proof.
  intros W H. destruct (alloc_cols_df h d k cols W H) as (r' & h' & E & W' & A & _). exists r', h'. split; [done|]. split; [done|].
  rewrite A. split; [done|]. split; [done|]. intros k' c. rewrite t_alloc_lookup. cbn.
  repeat destruct (decide _); naive_solver.
Qed.
Lemma C80_alloc_strings_partial_main (rt : GoRT) (h : heap) (d : dframe) (cols : list string) : wf h d ->
  t_cols (abs h d) <> ∅ \/ num_rows d = 0 ->
  exists r' h', alloc_strings (d_raw d) cols h = Ok (r', h') /\ wf h' (set_raw d r') /\
    t_rows (abs h' (set_raw d r')) = num_rows d /\
    (forall c, c ∈ t_strs (abs h' (set_raw d r')) <-> c ∈ t_strs (abs h d) \/ c ∈ cols) /\
    (forall k' c, t_cols (abs h' (set_raw d r')) !! (k', c) =
       if decide (k' = KObj /\ c ∈ cols) then Some (replicate (num_rows d) (VObj ONil)) else t_cols (abs h d) !! (k', c)).
Proof.
  intros W H. destruct (alloc_strings_df h d cols W H) as (r' & h' & E & W' & A & _). exists r', h'. split; [done|]. split; [done|].
  rewrite A. split; [done|]. split.
  - intros c. unfold t_mark. cbn [t_strs t_alloc t_with_cols]. by rewrite elem_of_union, elem_of_list_to_set.
  - intros k' c. change (t_cols (t_mark (list_to_set cols) (t_alloc KObj cols (abs h d)))) with (t_cols (t_alloc KObj cols (abs h d))).
    rewrite t_alloc_lookup. cbn. repeat destruct (decide _); naive_solver.
Qed.

(** ** Concrete cases *)
Section wit.
Existing Instance ex_rt.
Definition dr_h : heap := match drop_cols (d_raw ex_d) ["a"; "s"; "zz"] ex_h with Ok (_, h') => h' | Panic => heap0 end.
Lemma C79_check_main : wf ex_h ex_d /\ drop_cols (d_raw ex_d) ["a"; "s"; "zz"] ex_h = Ok (tt, dr_h) /\
  is_Some (show KInt "a" ex_h ex_d) /\ show KInt "a" dr_h ex_d = None /\ is_Some (show KObj "s" ex_h ex_d) /\ show KObj "s" dr_h ex_d = None /\
  show KFloat "b" dr_h ex_d = show KFloat "b" ex_h ex_d /\ "s" ∈ t_strs (abs ex_h ex_d).
Proof.
  split; [exact ex_wf|]. split; [by vm_compute|]. split; [apply (bool_decide_unpack _); by vm_compute|]. split; [by vm_compute|].
  split; [apply (bool_decide_unpack _); by vm_compute|]. split; [by vm_compute|]. split; [by vm_compute|]. apply (bool_decide_unpack _); by vm_compute.
Qed.
Definition al : raw * heap := match alloc_cols KFloat (d_raw ex_v) ["a"; "n"] ex_vh with Ok x => x | Panic => (d_raw ex_d, heap0) end.
Lemma C80_check_main : wf ex_vh ex_v /\ t_cols (abs ex_vh ex_v) <> ∅ /\ alloc_cols KFloat (d_raw ex_v) ["a"; "n"] ex_vh = Ok al /\
  show KFloat "n" al.2 (set_raw ex_v al.1) = Some (replicate 3 (VFloat f64_zero)) /\
  show KInt "a" al.2 (set_raw ex_v al.1) = Some [VInt 9; VInt 5; VInt 9].
Proof.
  split; [exact ex_v_wf|]. split; [|split_and!; by vm_compute].
  intros H. apply (f_equal (fun m => bool_decide (is_Some (m !! (KInt, "a"))))) in H. by vm_compute in H.
Qed.
(** When all columns have been dropped, the number of rows is forgotten: the
    new column has no rows although the dataframe has some, and reading it panics. *)
Definition al_drop : heap := match drop_cols (d_raw ex_d) ["a"; "b"; "f"; "s"] ex_h with Ok (_, h') => h' | Panic => heap0 end.
Definition al0 : raw * heap := match alloc_cols KInt (d_raw ex_d) ["n"] al_drop with Ok x => x | Panic => (d_raw ex_d, heap0) end.
Lemma C80_no_columns_refuted_main : exists (rt : GoRT) h d r' h', wf h d /\ num_rows d = 4 /\
  alloc_cols KInt (d_raw d) ["n"] h = Ok (r', h') /\ t_cols (abs h' (set_raw d r')) !! (KInt, "n") = Some [].
Proof.
  exists ex_rt, al_drop, ex_d, al0.1, al0.2. split; [apply (wf_check_sound _ _ 4); by vm_compute|]. split_and!; by vm_compute.
Qed.
End wit.
