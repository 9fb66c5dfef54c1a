(** C127: constant predictions, and errors in the unit of the target, in exact
    arithmetic. *)
From Coq Require Import Reals Psatz.
From Verif Require Export P_PrepMain.
From Verif Require Import P_ErrorsMain P_UnitsMain P_OutlierMain.
From stdpp Require Import strings list.
From Verif Require Import M_Prep P_Auto4 P_Check.
Local Open Scope R_scope.

Lemma present_all ys : present (XR <$> ys) = ys.
Proof. induction ys as [|y ys IH]; [done|]. by rewrite fmap_cons, present_cons, IH. Qed.
Lemma all_finite ys : Forall finite_or_missing (XR <$> ys).
Proof. apply Forall_fmap. by apply Forall_forall. Qed.
Lemma sq_const a ys : sq_errors (replicate (length ys) a) ys = (fun y => (a - y) * (a - y)) <$> ys.
Proof. induction ys as [|y ys IH]; [done|]. unfold sq_errors in *. cbn [length replicate zip_with]. rewrite !fmap_cons. by rewrite IH. Qed.
Lemma sum_about a m ys : r_sum ((fun y => (a - y) * (a - y)) <$> ys) =
  r_sum ((fun y => (y - m) * (y - m)) <$> ys) + 2 * (m - a) * (r_sum ys - INR (length ys) * m) + INR (length ys) * ((a - m) * (a - m)).
Proof. induction ys as [|y ys IH]; [rewrite !fmap_nil, r_sum_nil; cbn [length INR]; ring|]. rewrite !fmap_cons, !r_sum_cons, IH. cbn [length]. rewrite S_INR. ring. Qed.
Lemma C127_constant_main : forall (a : R) (ys : list R), ys <> [] ->
  x_mse (replicate (length ys) a) ys = r_var ys + (a - r_mean ys) * (a - r_mean ys).
Proof.
  intros a ys Hn. pose proof (length_pos ys Hn) as HP.
  rewrite (proj2 (x_mse_eq (replicate (length ys) a) ys (replicate_length _ _) ltac:(by destruct ys))). rewrite sq_const. unfold r_mean at 1. rewrite fmap_length, (sum_about a (r_mean ys)), r_var_eq.
  replace (r_sum ys - INR (length ys) * r_mean ys) with 0 by (unfold r_mean; field; lra). field. lra.
Qed.
Lemma C127_best_main : forall (vs : list xr) (m : R), Forall finite_or_missing vs -> mean_of real_arith vs = XR m ->
  let n := length (present vs) in forall a : R,
  x_mse (replicate n m) (present vs) <= x_mse (replicate n a) (present vs) /\
  (x_mse (replicate n a) (present vs) = x_mse (replicate n m) (present vs) -> a = m).
Proof.
  intros vs m H Hm n a. rewrite mean_exact in Hm by done. destruct (decide (present vs = [])) as [E|Hn]; [discriminate Hm|]. injection Hm as <-.
  unfold n. rewrite !C127_constant_main by done. pose proof (Rle_0_sqr (a - r_mean (present vs))) as HQ. unfold Rsqr in HQ. replace ((r_mean (present vs) - r_mean (present vs)) * (r_mean (present vs) - r_mean (present vs))) with 0 by ring. split; [lra|]. intros E. assert (E2 : (a - r_mean (present vs)) * (a - r_mean (present vs)) = 0) by lra.
  apply Rmult_integral in E2. lra.
Qed.
Lemma std_list c ys : ys <> [] -> scale_value (exact_scaler std c (XR <$> ys)) c <$> (XR <$> ys) = XR <$> ((fun y => (y + - r_mean ys) * r_scale ys) <$> ys).
Proof.
  intros Hn. destruct (std_fit (XR <$> ys) (all_finite ys) ltac:(by rewrite present_all)) as [E1 E2]. rewrite present_all in E1, E2.
  rewrite <- !list_fmap_compose. apply list_fmap_ext. intros i y _. unfold compose. by rewrite (exact_value std c _ _ _ E1 E2).
Qed.
Lemma C127_zero_main : forall (c : string) (ys : list R), ~ all_equal ys ->
  mse_of real_arith (replicate (length ys) (XR 0)) (exact_result std c (XR <$> ys)) = XR 1.
Proof.
  intros c ys HA. assert (Hn : ys <> []) by (intros ->; apply HA; intros x y Hx; by apply elem_of_nil in Hx).
  destruct (C50_standardised_main c (XR <$> ys) (all_finite ys) ltac:(by rewrite present_all)) as (_ & _ & HL & HM & HV & _). fold std in HL, HM, HV. rewrite present_all in HL, HV. specialize (HV HA).
  unfold exact_result in *. rewrite std_list in * by done. rewrite present_all in *. set (zs := _ <$> ys) in *.
  assert (Hz : zs <> []) by (unfold zs; by destruct ys). rewrite <- HL.
  replace (replicate (length zs) (XR 0)) with (XR <$> replicate (length zs) 0) by apply fmap_replicate.
  rewrite (proj1 (x_mse_eq (replicate (length zs) 0) zs (replicate_length _ _) ltac:(by destruct zs))). rewrite C127_constant_main, HM, HV by done. f_equal. ring.
Qed.
Lemma sq_back (f g : R -> R) k : (forall z y, (f z - y) * (f z - y) = (z - g y) * (z - g y) * k) ->
  forall zs ys, sq_errors (f <$> zs) ys = (fun x => x * k) <$> sq_errors zs (g <$> ys).
Proof.
  intros H zs. induction zs as [|z zs IH]; intros [|y ys]; try done. specialize (IH ys). unfold sq_errors in *. rewrite !fmap_cons; cbn [zip_with]; rewrite !fmap_cons. rewrite IH. f_equal. apply H.
Qed.
Lemma abs_back (f g : R -> R) k : (forall z y, Rabs (f z - y) = Rabs (z - g y) * k) ->
  forall zs ys, abs_errors (f <$> zs) ys = (fun x => x * k) <$> abs_errors zs (g <$> ys).
Proof.
  intros H zs. induction zs as [|z zs IH]; intros [|y ys]; try done. specialize (IH ys). unfold abs_errors in *. rewrite !fmap_cons; cbn [zip_with]; rewrite !fmap_cons. rewrite IH. f_equal. apply H.
Qed.
Lemma mean_mul k l : r_mean ((fun x => x * k) <$> l) = r_mean l * k.
Proof. unfold r_mean. rewrite r_sum_mul, fmap_length. unfold Rdiv. ring. Qed.
Lemma C127_back_main : forall (c : string) (ys zs : list R), ~ all_equal ys -> length zs = length ys ->
  let sc := exact_scaler std c (XR <$> ys) in
  let predicted := scale_value (inverse_scaler sc) c <$> (XR <$> zs) in
  let target := scale_value sc c <$> (XR <$> ys) in
  mse_of real_arith predicted (XR <$> ys) = a_mul real_arith (mse_of real_arith (XR <$> zs) target) (XR (r_var ys)) /\
  mae_of real_arith predicted (XR <$> ys) = a_mul real_arith (mae_of real_arith (XR <$> zs) target) (XR (R_sqrt.sqrt (r_var ys))).
Proof.
  intros c ys zs HA HL sc predicted target. assert (Hn : ys <> []) by (intros ->; apply HA; intros x y Hx; by apply elem_of_nil in Hx).
  assert (HV : r_var ys <> 0) by (intros E; apply HA; by apply r_var_0). pose proof (r_scale_sq ys Hn HV) as HS. pose proof (r_scale_pos ys Hn) as HP.
  destruct (std_fit (XR <$> ys) (all_finite ys) ltac:(by rewrite present_all)) as [E1 E2]. rewrite present_all in E1, E2.
  set (f := fun z => z / r_scale ys + r_mean ys). set (g := fun y => (y + - r_mean ys) * r_scale ys).
  assert (HT : target = XR <$> (g <$> ys)) by (unfold target, sc; by rewrite std_list).
  assert (HB : predicted = XR <$> (f <$> zs)).
  { unfold predicted. rewrite <- !list_fmap_compose. apply list_fmap_ext. intros i z _. unfold compose.
    assert (V : scale_value sc c (XR (f z)) = XR z). { unfold sc. rewrite (exact_value std c _ _ _ E1 E2). f_equal. unfold f. field. lra. }
    rewrite <- V. destruct (exact_maps std c (XR <$> ys)) as [M1 M2]. rewrite E1 in M1. rewrite E2 in M2.
    eapply C52_inverse_main; [right; by eexists|exact M1|exact M2|lra]. }
  assert (Hf : length (f <$> zs) = length ys) by by rewrite fmap_length. assert (Hg : length zs = length (g <$> ys)) by by rewrite fmap_length.
  assert (Hz : zs <> []) by (destruct zs; [by destruct ys|done]). assert (Hfz : f <$> zs <> []) by by destruct zs.
  assert (HK : r_var ys = / r_scale ys * / r_scale ys). { apply (Rmult_eq_reg_r (r_scale ys * r_scale ys)); [|nra]. rewrite HS. field. lra. }
  assert (HK2 : R_sqrt.sqrt (r_var ys) = / r_scale ys). { rewrite HK. apply R_sqrt.sqrt_square. left. by apply Rinv_0_lt_compat. }
  rewrite HT, HB. rewrite (proj1 (x_mse_eq _ _ Hf Hfz)), (proj1 (x_mae_eq _ _ Hf Hfz)), (proj1 (x_mse_eq _ _ Hg Hz)), (proj1 (x_mae_eq _ _ Hg Hz)).
  cbn [a_mul real_arith x_mul]. rewrite (proj2 (x_mse_eq _ _ Hf Hfz)), (proj2 (x_mae_eq _ _ Hf Hfz)), (proj2 (x_mse_eq _ _ Hg Hz)), (proj2 (x_mae_eq _ _ Hg Hz)).
  rewrite HK2, HK. split.
  - rewrite (sq_back f g (/ r_scale ys * / r_scale ys)). { by rewrite mean_mul. } intros z y. unfold f, g. field. lra.
  - rewrite (abs_back f g (/ r_scale ys)). { by rewrite mean_mul. } intros z y. rewrite <- (Rabs_pos_eq (/ r_scale ys)) by (left; by apply Rinv_0_lt_compat). rewrite <- Rabs_mult. f_equal. unfold f, g. field. lra.
Qed.
Lemma C127_check_main : ~ all_equal [1; 5] /\ r_mean [1; 5] = 3 /\ r_var [1; 5] = 4 /\ x_mse (replicate 2 1) [1; 5] = 8 /\
  mean_of real_arith [XR 1; XNaN; XR 5] = XR 3.
Proof.
  split. { intros H. assert (E : 1 = 5) by (apply H; repeat constructor). lra. }
  assert (M : r_mean [1; 5] = 3) by (unfold r_mean, r_sum; cbn; field). assert (V : r_var [1; 5] = 4) by (rewrite r_var_eq, M; unfold r_sum; cbn; field).
  split; [done|]. split; [done|]. split.
  - pose proof (C127_constant_main 1 [1; 5] ltac:(done)) as H. cbn [length] in H. rewrite H, M, V. ring.
  - rewrite mean_exact by (by repeat constructor). rewrite decide_False by done. by rewrite <- M.
Qed.
