(** A concrete runtime, concrete dataframes and a checker for [wf]; used only
    to exhibit concrete cases beside the theorems. *)
From Verif Require Export M_Build P_Base.

Definition col_okb (h : heap) (k : kind) (s : slice) : bool :=
  bool_decide (s_len s <= s_cap s) &&
  bool_decide (s_off s + s_cap s <= length (arr h (s_arr s))) &&
  bool_decide (Forall (fun v => kind_of v = k) (take (s_cap s) (drop (s_off s) (arr h (s_arr s))))).
Definition olt (o : option nat) (n : nat) : bool :=
  match o with Some l => bool_decide (l < n) | None => true end.
Definition wf_check (h : heap) (d : dframe) (n : nat) : bool :=
  bool_decide (r_maps (d_raw d) < length (h_map h)) &&
  olt (r_strs (d_raw d)) (length (h_str h)) && olt (r_shared (d_raw d)) (length (h_shr h)) &&
  forallb (fun p => col_okb h p.1.1 p.2 && bool_decide (s_len p.2 = n))
          (map_to_list (mp h (r_maps (d_raw d)))) &&
  bool_decide (ilen (d_ind d) <= length (ibuf (d_ind d))) &&
  bool_decide (Forall (fun i => i < n) (inds d)) &&
  (d_viewed d || (bool_decide (inds d = seq 0 (num_rows d)) && bool_decide (num_rows d = n))) &&
  bool_decide (s_len (d_mask d) <= s_cap (d_mask d)) &&
  bool_decide (s_off (d_mask d) + s_cap (d_mask d) <= length (marr h (s_arr (d_mask d)))) &&
  bool_decide (num_rows d <= s_len (d_mask d)).

Lemma olt_sound o n : olt o n = true -> forall l, o = Some l -> l < n.
Proof. intros H l ->. simpl in H. by apply bool_decide_eq_true in H. Qed.
Lemma wf_check_sound h d n : wf_check h d n = true -> wf h d.
Proof.
  unfold wf_check. rewrite !andb_true_iff, !bool_decide_eq_true, forallb_forall.
  intros (((((((((H1 & H2) & H3) & H4) & H5) & H6) & H7) & H8) & H9) & H10).
  exists n. split; try done.
  - by apply olt_sound.
  - by apply olt_sound.
  - intros k s Hk. specialize (H4 (k, s)). rewrite andb_true_iff, bool_decide_eq_true in H4.
    destruct H4 as [Ha Hb]; [apply elem_of_list_In; by apply elem_of_map_to_list|].
    split; [|done]. unfold col_okb in Ha. rewrite !andb_true_iff, !bool_decide_eq_true in Ha.
    destruct Ha as [[? ?] ?]. done.
  - intros Hv. rewrite Hv in H7. simpl in H7. rewrite andb_true_iff, !bool_decide_eq_true in H7.
    done.
Qed.

(** Four cores; append doubles the capacity. *)
Lemma ex_grow_ok (c n : nat) : n <= n `max` (2 * c).
Proof. lia. Qed.
Definition ex_rt : GoRT := {| rt_ncpu := 4; rt_ncpu_ok := ltac:(done);
  rt_grow := fun c n => n `max` (2 * c); rt_grow_ok := ex_grow_ok |}.

Definition heap0 : heap := Heap [] [] [] [] [].
(** Results of running model code, with a default that is not well formed. *)
Definition dummy : dframe := DF (Raw 0 None false None 0 None) (Ind [] 1) nil_slice false false.
Definition run_df (m : M dframe) (h : heap) : dframe * heap :=
  match m h with Ok p => p | Panic => (dummy, heap0) end.

Section ex.
Existing Instance ex_rt.
Definition f_half : f64 := f64_div f64_one (f64_of_Z 2).
(** Four rows: ints a, floats b, bools f, strings s (one missing). *)
Definition ex_build : M dframe :=
  let* r := new_raw in
  let* r := b_add KInt r "a" [VInt 5; VInt 3] in
  let* r := b_add KInt r "a" [VInt 9; VInt 1] in
  let* r := b_add KFloat r "b" [VFloat f_half; VFloat f64_zero; VFloat f64_one; VFloat f64_one] in
  let* r := b_add KBool r "f" [VBool true; VBool false; VBool true; VBool false] in
  let* r := b_add KObj r "s" [VObj (OStr "x"); VObj ONil; VObj (OStr "yy"); VObj (OStr "x")] in
  let* r := b_mark r "s" in
  to_dataframe (set_max_cpu r 3).
Definition ex_d : dframe := (run_df ex_build heap0).1.
Definition ex_h : heap := (run_df ex_build heap0).2.
Lemma ex_wf : wf ex_h ex_d.
Proof. apply (wf_check_sound _ _ 4). by vm_compute. Qed.
(** A view of it with a repeated row: rows 2, 0, 2. *)
Definition ex_v : dframe := (run_df (index_view ex_d [2; 0; 2]%Z) ex_h).1.
Definition ex_vh : heap := (run_df (index_view ex_d [2; 0; 2]%Z) ex_h).2.
Lemma ex_v_wf : wf ex_vh ex_v.
Proof. apply (wf_check_sound _ _ 4). by vm_compute. Qed.

(** One column of a dataframe as a list, for readable examples. *)
Definition show (k : kind) (c : string) (h : heap) (d : dframe) : option (list val) :=
  t_cols (abs h d) !! (k, c).
End ex.
