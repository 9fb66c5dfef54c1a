(** C121: standardising does not depend on the unit of measurement, in exact
    arithmetic. *)
From Coq Require Import Reals Psatz.
From Verif Require Export P_PrepMain.
From stdpp Require Import strings list.
From Verif Require Import M_Prep P_Auto4 P_Check.
Local Open Scope R_scope.

(** The values in another unit, such as degrees Fahrenheit for Celsius. *)
Definition in_unit (a b : R) (v : xr) : xr := match v with XR r => XR (a * r + b) | _ => v end.
Definition std : scaler_opt := ScalerOpt false true true.

Lemma present_unit a b vs : a <> 0 -> present (in_unit a b <$> vs) = (fun x => (x + b / a) * a) <$> present vs.
Proof.
  intros Ha. induction vs as [|[r|s|] vs IH]; [done| |exact IH|exact IH]. unfold present in *. cbn. f_equal; [|exact IH]. field. done.
Qed.
Lemma unit_finite a b vs : Forall finite_or_missing vs -> Forall finite_or_missing (in_unit a b <$> vs).
Proof. intros H. apply Forall_fmap. eapply Forall_impl; [exact H|]. by intros [r|s|]. Qed.
Lemma std_fit vs : Forall finite_or_missing vs -> present vs <> [] ->
  default (XR 0) (fit_col real_arith std vs).1 = XR (- r_mean (present vs)) /\ default (XR 1) (fit_col real_arith std vs).2 = XR (r_scale (present vs)).
Proof. intros H Hn. split; simpl; [rewrite mean_exact by done; by rewrite decide_False|by rewrite scale_exact]. Qed.

(** The affine maps of the two fits agree on corresponding values. *)
Lemma unit_scale xs a b : 0 < a -> xs <> [] -> forall x, x ∈ xs \/ ~ all_equal xs ->
  (a * x + b + - r_mean ((fun x => (x + b / a) * a) <$> xs)) * r_scale ((fun x => (x + b / a) * a) <$> xs) = (x + - r_mean xs) * r_scale xs.
Proof.
  intros Ha Hn x Hx. rewrite r_mean_affine by done. unfold r_scale. rewrite r_var_affine, fmap_length by done.
  replace (a * x + b + - ((r_mean xs + b / a) * a)) with (a * (x + - r_mean xs)) by (field; lra).
  destruct (Req_EM_T (r_var xs) 0) as [E|E].
  - rewrite E, Rmult_0_l. destruct (Req_EM_T 0 0) as [_|]; [|done]. assert (HA : all_equal xs) by by apply r_var_0.
    destruct Hx as [Hx|Hx]; [|done]. rewrite (const_mean xs x); [lra|done|]. apply Forall_forall. intros y Hy. by apply HA.
  - pose proof (r_var_nonneg xs Hn) as Hv. assert (Hv' : 0 < r_var xs) by (destruct Hv as [?|Hv]; [done|by rewrite <- Hv in E]).
    destruct (Req_EM_T (r_var xs * (a * a)) 0) as [E'|_]; [exfalso; assert (0 < r_var xs * (a * a)) by (apply Rmult_lt_0_compat; nra); lra|].
    rewrite Rinv_mult. rewrite R_sqrt.sqrt_mult; [|left; by apply Rinv_0_lt_compat|left; apply Rinv_0_lt_compat; nra].
    replace (R_sqrt.sqrt (/ (a * a))) with (/ a). { field. lra. }
    symmetry. rewrite <- (R_sqrt.sqrt_square (/ a)) by (left; by apply Rinv_0_lt_compat). f_equal. field. lra.
Qed.
Lemma C121_units_main : forall (c : string) (vs : list xr) (a b : R), Forall finite_or_missing vs -> 0 < a ->
  exact_result std c (in_unit a b <$> vs) = exact_result std c vs.
Proof.
  intros c vs a b H Ha. pose proof (unit_finite a b vs H) as H'. unfold exact_result. rewrite <- list_fmap_compose. apply list_fmap_ext. intros i v Hv.
  pose proof (Forall_lookup_1 _ _ _ _ H Hv) as Hf. destruct v as [r|s|]; [|done|done]. unfold compose. cbn [in_unit].
  assert (Hr : r ∈ present vs) by (unfold present; apply elem_of_list_omap; exists (XR r); split; [by eapply elem_of_list_lookup_2|done]).
  assert (Hn : present vs <> []) by (intros E; rewrite E in Hr; by apply elem_of_nil in Hr).
  assert (Hn' : present (in_unit a b <$> vs) <> []) by (rewrite present_unit by lra; by destruct (present vs)).
  destruct (std_fit vs H Hn) as [E1 E2]. destruct (std_fit _ H' Hn') as [F1 F2].
  rewrite (exact_value std c _ _ _ F1 F2), (exact_value std c _ _ _ E1 E2). f_equal. rewrite !present_unit by lra. apply unit_scale; [done|done|by left].
Qed.
(** What the inverse transformation returns is in the unit of the data. *)
Lemma exact_maps opt c vs : shift_of (exact_scaler opt c vs) c = default (XR 0) (fit_col real_arith opt vs).1 /\ factor_of (exact_scaler opt c vs) c = default (XR 1) (fit_col real_arith opt vs).2.
Proof. split; [apply exact_shift|apply exact_factor]. Qed.
Lemma C121_back_main : forall (c : string) (vs : list xr) (a b z : R), Forall finite_or_missing vs -> ~ all_equal (present vs) -> 0 < a ->
  exists x, scale_value (inverse_scaler (exact_scaler std c vs)) c (XR z) = XR x /\
    scale_value (inverse_scaler (exact_scaler std c (in_unit a b <$> vs))) c (XR z) = XR (a * x + b).
Proof.
  intros c vs a b z H Hne Ha. pose proof (unit_finite a b vs H) as H'.
  assert (Hn : present vs <> []) by (intros E; apply Hne; rewrite E; intros x y Hx; by apply elem_of_nil in Hx).
  assert (Hn' : present (in_unit a b <$> vs) <> []) by (rewrite present_unit by lra; by destruct (present vs)).
  destruct (std_fit vs H Hn) as [E1 E2]. destruct (std_fit _ H' Hn') as [F1 F2].
  assert (K : forall xs, xs <> [] -> ~ all_equal xs -> r_scale xs <> 0).
  { intros xs Hx HA. unfold r_scale. destruct (Req_EM_T (r_var xs) 0) as [E|E]; [exfalso; apply HA; by apply r_var_0|].
    pose proof (r_var_nonneg xs Hx) as Hv. assert (Hv' : 0 < r_var xs) by (destruct Hv as [?|Hv]; [done|by rewrite <- Hv in E]).
    pose proof (R_sqrt.sqrt_lt_R0 (/ r_var xs) (Rinv_0_lt_compat _ Hv')). lra. }
  assert (HA' : ~ all_equal (present (in_unit a b <$> vs))).
  { rewrite present_unit by lra. intros HA. apply Hne. intros x y Hx Hy. assert (E : (x + b / a) * a = (y + b / a) * a); [|nra].
    apply HA; apply elem_of_list_fmap; [by exists x|by exists y]. }
  pose proof (K _ Hn Hne) as K1. pose proof (K _ Hn' HA') as K2.
  set (x := z / r_scale (present vs) + r_mean (present vs)).
  assert (V1 : scale_value (exact_scaler std c vs) c (XR x) = XR z).
  { rewrite (exact_value std c _ _ _ E1 E2). f_equal. unfold x. field. done. }
  assert (V2 : scale_value (exact_scaler std c (in_unit a b <$> vs)) c (XR (a * x + b)) = XR z).
  { rewrite <- V1. rewrite (exact_value std c _ _ _ F1 F2), (exact_value std c _ _ _ E1 E2). f_equal. rewrite !present_unit by lra. apply unit_scale; [done|done|by right]. }
  destruct (exact_maps std c vs) as [M1 M2]. destruct (exact_maps std c (in_unit a b <$> vs)) as [N1 N2]. rewrite E1 in M1. rewrite E2 in M2. rewrite F1 in N1. rewrite F2 in N2.
  exists x. split.
  - rewrite <- V1. eapply C52_inverse_main; [right; by eexists|exact M1|exact M2|exact K1].
  - rewrite <- V2. eapply C52_inverse_main; [right; by eexists|exact N1|exact N2|exact K2].
Qed.
Section wit.
Existing Instance ex_rt.
Lemma C121_check_main : Forall finite_or_missing [XR 1; XNaN; XR 3] /\ ~ all_equal (present [XR 1; XNaN; XR 3]) /\
  (in_unit 2 1 <$> [XR 1; XNaN; XR 3]) = [XR (2 * 1 + 1); XNaN; XR (2 * 3 + 1)] /\
  fit_trans std [fz 1; S754_nan; fz 3] = Some (VFloat <$> [fz (-1); S754_nan; fz 1]) /\
  fit_trans std [fz 3; S754_nan; fz 7] = Some (VFloat <$> [fz (-1); S754_nan; fz 1]).
Proof. destruct C50_check2_main as (H1 & _ & H2). split; [done|]. split; [done|]. split; [done|]. split; by vm_compute. Qed.
End wit.
