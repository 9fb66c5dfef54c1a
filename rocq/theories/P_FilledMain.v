(** C122: imputing the mean before standardising, in exact arithmetic. *)
From Coq Require Import Reals Psatz.
From Verif Require Export P_UnitsMain.
From stdpp Require Import strings list.
From Verif Require Import M_Prep P_Auto4 P_Check.
Local Open Scope R_scope.

(** What FloatImputer does to one value (float_imputer.go:99-101), over any
    arithmetic. *)
Definition impute_in (A : arith) (fallback v : num A) : num A := if a_isnan A v then fallback else v.
Definition imputed (vs : list xr) : list xr := impute_in real_arith (mean_of real_arith vs) <$> vs.
Definition stretched (k : R) (v : xr) : xr := match v with XR z => XR (k * z) | _ => XR 0 end.

Definition filled (m : R) (vs : list xr) : list R := (fun v => match v with XR r => r | _ => m end) <$> vs.
Lemma filled_sum (g : R -> R) m vs : r_sum (g <$> filled m vs) = r_sum (g <$> present vs) + g m * (INR (length vs) - INR (length (present vs))).
Proof.
  induction vs as [|v vs IH]; [cbn; lra|]. change (length (v :: vs)) with (S (length vs)). rewrite S_INR.
  destruct v as [r|s|].
  - change (g r + r_sum (g <$> filled m vs) = r_sum (g <$> r :: present vs) + g m * (INR (length vs) + 1 - INR (S (length (present vs))))).
    change (r_sum (g <$> r :: present vs)) with (g r + r_sum (g <$> present vs)). rewrite S_INR, IH. lra.
  - change (g m + r_sum (g <$> filled m vs) = r_sum (g <$> present vs) + g m * (INR (length vs) + 1 - INR (length (present vs)))). rewrite IH. lra.
  - change (g m + r_sum (g <$> filled m vs) = r_sum (g <$> present vs) + g m * (INR (length vs) + 1 - INR (length (present vs)))). rewrite IH. lra.
Qed.
Lemma imputed_filled vs : Forall finite_or_missing vs -> present vs <> [] -> imputed vs = XR <$> filled (r_mean (present vs)) vs.
Proof.
  intros H Hn. unfold imputed, filled. rewrite mean_exact, decide_False by done. rewrite <- list_fmap_compose. apply list_fmap_ext. intros i v Hv.
  pose proof (Forall_lookup_1 _ _ _ _ H Hv) as Hf. by destruct v.
Qed.
Lemma present_XR xs : present (XR <$> xs) = xs.
Proof. unfold present. induction xs as [|x xs IH]; [done|]. cbn. by f_equal. Qed.
Lemma present_len vs : (length (present vs) <= length vs)%nat.
Proof. induction vs as [|[r|s|] vs IH]; cbn; unfold present in *; [done|lia|lia|lia]. Qed.
Lemma filled_mean vs : present vs <> [] -> r_mean (filled (r_mean (present vs)) vs) = r_mean (present vs).
Proof.
  intros Hn. pose proof (length_pos _ Hn) as Hp. pose proof (present_len vs) as Hl. apply le_INR in Hl.
  pose proof (filled_sum id (r_mean (present vs)) vs) as E. rewrite !list_fmap_id in E. unfold id in E.
  unfold r_mean at 1. rewrite E. unfold filled. rewrite fmap_length. unfold r_mean. field. lra.
Qed.
Lemma filled_var vs : present vs <> [] -> r_var (filled (r_mean (present vs)) vs) * INR (length vs) = r_var (present vs) * INR (length (present vs)).
Proof.
  intros Hn. pose proof (length_pos _ Hn) as Hp. pose proof (present_len vs) as Hl. apply le_INR in Hl.
  unfold r_var. rewrite filled_mean by done. set (m := r_mean (present vs)).
  pose proof (filled_sum (fun x => (x - m) * (x - m)) m vs) as E. unfold r_mean. rewrite E, !fmap_length. unfold filled. rewrite !fmap_length. field. lra.
Qed.

Lemma C122_mean_main : (forall fallback v : f64, impute_in f64_arith fallback v = impute_value fallback v) /\
  forall (vs : list xr), Forall finite_or_missing vs -> present vs <> [] ->
  Forall (fun w => exists r, w = XR r) (imputed vs) /\ mean_of real_arith (imputed vs) = mean_of real_arith vs.
Proof.
  split; [done|]. intros vs H Hn. rewrite imputed_filled by done. split.
  - apply Forall_fmap, Forall_forall. intros r _. by eexists.
  - assert (F : Forall finite_or_missing (XR <$> filled (r_mean (present vs)) vs)) by (apply Forall_fmap, Forall_forall; done).
    rewrite !mean_exact, present_XR by done. rewrite (decide_False (P := present vs = [])) by done.
    rewrite decide_False by (intros E; apply fmap_nil_inv in E; by rewrite E in Hn). by rewrite filled_mean.
Qed.
Lemma C122_standardised_main : forall (c : string) (vs : list xr), Forall finite_or_missing vs -> present vs <> [] ->
  exact_result std c (imputed vs) = stretched (R_sqrt.sqrt (INR (length vs) / INR (length (present vs)))) <$> exact_result std c vs.
Proof.
  intros c vs H Hn. rewrite imputed_filled by done. set (m := r_mean (present vs)). set (ws := filled m vs).
  pose proof (length_pos _ Hn) as Hp. pose proof (present_len vs) as Hl. apply le_INR in Hl.
  assert (Hw : ws <> []) by (intros E; apply fmap_nil_inv in E; by rewrite E in Hn).
  assert (F : Forall finite_or_missing (XR <$> ws)) by (apply Forall_fmap, Forall_forall; done).
  assert (Hn' : present (XR <$> ws) <> []) by by rewrite present_XR.
  destruct (std_fit vs H Hn) as [E1 E2]. destruct (std_fit _ F Hn') as [F1 F2]. rewrite present_XR in F1, F2. fold m in E1.
  pose proof (filled_mean vs Hn) as EM. fold m in EM. fold ws in EM. rewrite EM in F1. pose proof (filled_var vs Hn) as EV. fold m in EV. fold ws in EV.
  unfold exact_result. rewrite <- !list_fmap_compose. unfold ws at 2, filled. rewrite <- list_fmap_compose. apply list_fmap_ext. intros i v Hv.
  pose proof (Forall_lookup_1 _ _ _ _ H Hv) as Hf. unfold compose. destruct v as [r|s|]; [|done|].
  - rewrite (exact_value std c _ _ _ F1 F2), (exact_value std c _ _ _ E1 E2). cbn [stretched]. f_equal.
    assert (Hr : r ∈ present vs) by (unfold present; apply elem_of_list_omap; exists (XR r); split; [by eapply elem_of_list_lookup_2|done]).
    unfold r_scale. pose proof (r_var_nonneg _ Hn) as HV. destruct (Req_EM_T (r_var (present vs)) 0) as [E|E].
    + assert (HA : all_equal (present vs)) by by apply r_var_0. replace (r + - m) with 0; [lra|]. unfold m. rewrite (const_mean _ r); [lra|done|]. apply Forall_forall. intros y Hy. by apply HA.
    + assert (HV' : 0 < r_var (present vs)) by lra. assert (Ew : r_var ws = r_var (present vs) * (INR (length (present vs)) / INR (length vs))) by (replace (r_var (present vs) * (INR (length (present vs)) / INR (length vs))) with ((r_var (present vs) * INR (length (present vs))) / INR (length vs)) by (unfold Rdiv; lra); rewrite <- EV; field; lra).
      assert (Hq : 0 < INR (length (present vs)) / INR (length vs)) by (apply Rdiv_lt_0_compat; lra).
      destruct (Req_EM_T (r_var ws) 0) as [E'|_]; [exfalso; rewrite Ew in E'; nra|].
      rewrite Ew. rewrite Rinv_mult. rewrite R_sqrt.sqrt_mult; [|left; by apply Rinv_0_lt_compat|left; by apply Rinv_0_lt_compat].
      replace (/ (INR (length (present vs)) / INR (length vs))) with (INR (length vs) / INR (length (present vs))) by (field; lra). fold m. lra.
  - rewrite (exact_value std c _ _ _ F1 F2). unfold scale_value. rewrite exact_shift, exact_factor, E1, E2. cbn. f_equal. lra.
Qed.
Section wit.
Existing Instance ex_rt.
Lemma C122_check_main : (let vs := [XR 1; XNaN; XNaN; XR 3; XNaN; XNaN; XNaN; XNaN] in Forall finite_or_missing vs /\ present vs = [1; 3] /\ length vs = 8%nat) /\
  (let vs := [fz 1; S754_nan; S754_nan; fz 3; S754_nan; S754_nan; S754_nan; S754_nan] in
   fit_impute IMean vs = Some (VFloat <$> [fz 1; fz 2; fz 2; fz 3; fz 2; fz 2; fz 2; fz 2]) /\
   fit_trans std vs = Some (VFloat <$> [fz (-1); S754_nan; S754_nan; fz 1; S754_nan; S754_nan; S754_nan; S754_nan]) /\
   fit_trans std [fz 1; fz 2; fz 2; fz 3; fz 2; fz 2; fz 2; fz 2] = Some (VFloat <$> [fz (-2); fz 0; fz 0; fz 2; fz 0; fz 0; fz 0; fz 0])).
Proof. cbv zeta. split; [split; [|done]; repeat (apply Forall_cons; split; [done|]); done|]. split; [by vm_compute|]. split; by vm_compute. Qed.
End wit.
