(** C119: preprocessing twice. *)
From Coq Require Import Reals Psatz.
From Verif Require Export P_PrepMain.
From Verif Require Import M_Prep P_Auto4 P_Check.
Local Open Scope R_scope.

(** ** Scaler, in exact arithmetic *)
Lemma present_nil (vs : list xr) : Forall finite_or_missing vs -> present vs = [] -> Forall (fun v => v = XNaN) vs.
Proof.
  intros H E. apply Forall_forall. intros v Hv. rewrite Forall_forall in H. specialize (H v Hv). destruct v as [r|s|]; [|done|done].
  exfalso. assert (r ∈ present vs) as Hx; [|rewrite E in Hx; by apply elem_of_nil in Hx]. unfold present. apply elem_of_list_omap. by exists (XR r).
Qed.
Lemma exact_result_nil opt c vs : Forall (fun v => v = XNaN) vs -> exact_result opt c vs = vs.
Proof.
  intros H. unfold exact_result. rewrite <- (list_fmap_id vs) at 3. apply list_fmap_ext. intros i v Hv. rewrite Forall_lookup in H. by rewrite (H _ _ Hv).
Qed.
(** A fit whose affine map fixes the present values changes nothing. *)
Lemma exact_result_fixed opt c vs a b : Forall finite_or_missing vs ->
  default (XR 0) (fit_col real_arith opt vs).1 = XR a -> default (XR 1) (fit_col real_arith opt vs).2 = XR b ->
  Forall (fun x => (x + a) * b = x) (present vs) -> exact_result opt c vs = vs.
Proof.
  intros H Ha Hb HF. unfold exact_result. rewrite <- (list_fmap_id vs) at 3. apply list_fmap_ext. intros i v Hv.
  pose proof (Forall_lookup_1 _ _ _ _ H Hv) as Hf. destruct v as [r|s|]; [|done|done]. rewrite (exact_value _ c vs a b Ha Hb). cbn. f_equal.
  rewrite Forall_forall in HF. apply HF. unfold present. apply elem_of_list_omap. exists (XR r). split; [by eapply elem_of_list_lookup_2|done].
Qed.
Lemma C119_standardised_main : forall (c : string) (vs : list xr), Forall finite_or_missing vs ->
  let opt := ScalerOpt false true true in exact_result opt c (exact_result opt c vs) = exact_result opt c vs.
Proof.
  intros c vs H opt. destruct (decide (present vs = [])) as [E|E]; [rewrite !exact_result_nil; [done|by apply present_nil..|]; rewrite exact_result_nil; by apply present_nil|].
  destruct (C50_standardised_main c vs H E) as (_ & H2 & H3 & H4 & H5 & H6). fold opt in H2, H3, H4, H5, H6. set (ws := exact_result opt c vs) in *.
  assert (Hne : present ws <> []) by (intros Ew; rewrite Ew in H3; destruct (present vs); done).
  assert (E1 : default (XR 0) (fit_col real_arith opt ws).1 = XR (- r_mean (present ws))) by (simpl; rewrite mean_exact by done; by rewrite decide_False).
  assert (E2 : default (XR 1) (fit_col real_arith opt ws).2 = XR (r_scale (present ws))) by (simpl; by rewrite scale_exact).
  apply (exact_result_fixed opt c ws _ _ H2 E1 E2). rewrite H4. apply Forall_forall. intros x Hx.
  destruct (Req_EM_T (r_var (present vs)) 0) as [Hv|Hv].
  - apply r_var_0 in Hv; [|done]. specialize (H6 Hv). rewrite Forall_forall in H6. rewrite (H6 x Hx). lra.
  - assert (Hn : ~ all_equal (present vs)) by (intros Ha; apply Hv; by apply r_var_0). specialize (H5 Hn). unfold r_scale. rewrite H5.
    destruct (Req_EM_T 1 0) as [?|_]; [lra|]. rewrite Rinv_1, R_sqrt.sqrt_1. lra.
Qed.
Lemma C119_centered_main : forall (c : string) (vs : list xr), Forall finite_or_missing vs ->
  let opt := ScalerOpt false true false in exact_result opt c (exact_result opt c vs) = exact_result opt c vs.
Proof.
  intros c vs H opt. destruct (decide (present vs = [])) as [E|E]; [rewrite !exact_result_nil; [done|by apply present_nil..|]; rewrite exact_result_nil; by apply present_nil|].
  assert (F1 : default (XR 0) (fit_col real_arith opt vs).1 = XR (- r_mean (present vs))) by (simpl; rewrite mean_exact by done; by rewrite decide_False).
  destruct (exact_result_affine opt c vs _ 1 H (exact_value opt c vs _ 1 F1 eq_refl)) as (P1 & P2 & _).
  destruct (C50_centered_main c vs H E) as (_ & H4 & _). fold opt in H4. set (ws := exact_result opt c vs) in *.
  assert (Hne : present ws <> []) by (intros Ew; rewrite P1 in Ew; by destruct (present vs)).
  assert (E1 : default (XR 0) (fit_col real_arith opt ws).1 = XR (- r_mean (present ws))) by (simpl; rewrite mean_exact by done; by rewrite decide_False).
  apply (exact_result_fixed opt c ws _ 1 P2 E1 eq_refl). rewrite H4. apply Forall_forall. intros x Hx. lra.
Qed.
Lemma C119_scaled_partial_main : forall (c : string) (vs : list xr), Forall finite_or_missing vs -> ~ all_equal (present vs) ->
  let opt := ScalerOpt false false true in exact_result opt c (exact_result opt c vs) = exact_result opt c vs.
Proof.
  intros c vs H Hn opt. assert (E : present vs <> []) by (intros E; apply Hn; rewrite E; intros x y Hx; by apply elem_of_nil in Hx).
  assert (F2 : default (XR 1) (fit_col real_arith opt vs).2 = XR (r_scale (present vs))) by (simpl; by rewrite scale_exact).
  destruct (exact_result_affine opt c vs 0 _ H (exact_value opt c vs 0 _ eq_refl F2)) as (P1 & P2 & _).
  destruct (C50_scaled_main c vs H E) as (_ & H4). fold opt in H4. destruct (H4 Hn) as [H5 _]. clear H4. set (ws := exact_result opt c vs) in *.
  assert (Hne : present ws <> []) by (intros Ew; rewrite P1 in Ew; by destruct (present vs)).
  assert (E2 : default (XR 1) (fit_col real_arith opt ws).2 = XR (r_scale (present ws))) by (simpl; by rewrite scale_exact).
  apply (exact_result_fixed opt c ws 0 _ P2 eq_refl E2). unfold r_scale. rewrite H5. destruct (Req_EM_T 1 0) as [?|_]; [lra|]. rewrite Rinv_1, R_sqrt.sqrt_1. apply Forall_forall. intros x Hx. lra.
Qed.
Local Close Scope R_scope.

(** ** Imputer *)
Lemma spec_impute_twice fb c v : spec_impute fb c (spec_impute fb c v) = spec_impute fb c v.
Proof. unfold spec_impute. destruct (decide (v = S754_nan)) as [->|Hv]; [|by rewrite decide_False]. by destruct (decide _) as [E|E]. Qed.
Lemma C119_imputer_main : forall (order : gset string -> list string) (fb : gmap string f64) (h : heap) (d : dframe) (h1 : heap),
  wf h d -> (forall X, order X ≡ₚ elements X) -> own_cells h d (dom fb) -> imputer_transform order fb d h = Ok (tt, h1) ->
  exists h2, imputer_transform order fb d h1 = Ok (tt, h2) /\ wf h2 d /\ abs h2 d = abs h1 d.
Proof.
  intros order fb h d h1 W Ho Hown E1. pose proof (C54_transform_main order fb h d W Ho Hown) as H1. rewrite E1 in H1. destruct H1 as (C1 & W1 & A1 & O1).
  assert (Hown1 : own_cells h1 d (dom fb)).
  { unfold imputer_transform in E1. pose proof (update_columns_spec (fun c => impute_value (default f64_zero (fb !! c))) d (order (dom fb)) h W) as HU.
    destruct (forM _ _ h) as [[[] hx]|] eqn:EX in HU; [|exfalso; discriminate (eq_trans (eq_sym EX) E1)].
    assert (EU : Ok (tt, hx) = Ok (tt, h1)) by (etrans; [symmetry; exact EX|exact E1]). injection EU as ->. destruct HU as (_ & Hw & _).
    intros c k j1 j2 a Hx. rewrite !(wrt_cell_of _ _ _ _ _ Hw). by apply Hown. }
  pose proof (C54_transform_main order fb h1 d W1 Ho Hown1) as H2. destruct (imputer_transform order fb d h1) as [[[] h2]|].
  - destruct H2 as (_ & W2 & A2 & _). exists h2. split; [done|]. split; [done|]. rewrite A2, A1. etrans; [apply t_update_twice|]. apply t_update_ext. intros c v. apply spec_impute_twice.
  - exfalso. destruct H2 as (c & Hc & Hn). destruct (O1 d W) as (_ & (_ & Hdom & _) & _). destruct (C1 c Hc) as [l Hl].
    assert (Hin : (KFloat, c) ∈ dom (t_cols (abs h1 d))) by (rewrite Hdom; by apply elem_of_dom_2 in Hl). apply elem_of_dom in Hin. rewrite Hn in Hin. by destruct Hin.
Qed.

(** ** Concrete cases *)
Section wit.
Existing Instance ex_rt.
(** Scaling a constant column without centering multiplies it again. *)
Lemma C119_scaling_refuted_main : exists vs ws : list f64, Forall finite vs /\ fit_trans (ScalerOpt false false true) vs = Some (VFloat <$> ws) /\
  fit_trans (ScalerOpt false false true) ws <> Some (VFloat <$> ws) /\ is_Some (fit_trans (ScalerOpt false false true) ws).
Proof.
  exists [fz 1; fz 1; fz 1], [fz 2; fz 2; fz 2]. split; [by repeat constructor|]. split; [by vm_compute|]. split; [by vm_compute|]. apply (bool_decide_unpack _). by vm_compute.
Qed.
(** Min-max scaling, too. *)
Lemma C119_minmax_refuted_main : exists vs ws : list f64, Forall finite vs /\ fit_trans (ScalerOpt true false false) vs = Some (VFloat <$> ws) /\
  fit_trans (ScalerOpt true false false) ws <> Some (VFloat <$> ws) /\ is_Some (fit_trans (ScalerOpt true false false) ws).
Proof.
  exists [fz 1; fz 3], [fz 0; fz 4]. split; [by repeat constructor|]. split; [by vm_compute|]. split; [by vm_compute|]. apply (bool_decide_unpack _). by vm_compute.
Qed.
Definition tw := one_col [fz 2; S754_nan; fz 4].
Definition tw_fb : gmap string f64 := {["x" := fz 3]}.
Definition tw1 := run_unit2 (imputer_transform elts tw_fb tw.1) tw.2.
Lemma C119_check_main : wf tw.2 tw.1 /\ own_cells tw.2 tw.1 (dom tw_fb) /\ imputer_transform elts tw_fb tw.1 tw.2 = Ok (tt, tw1) /\
  show KFloat "x" tw1 tw.1 = Some (VFloat <$> [fz 2; fz 3; fz 4]) /\
  Forall finite_or_missing [XR 1; XNaN; XR 3] /\ ~ all_equal (present [XR 1; XNaN; XR 3]).
Proof.
  split; [apply (wf_check_sound _ _ 3); by vm_compute|]. split.
  { assert (dom tw_fb = {["x"]}) as -> by (apply (bool_decide_unpack _); by vm_compute). apply own_one. apply (bool_decide_unpack _). by vm_compute. }
  split; [by vm_compute|]. split; [by vm_compute|]. destruct C50_check2_main as (H1 & _ & H2). done.
Qed.
End wit.
