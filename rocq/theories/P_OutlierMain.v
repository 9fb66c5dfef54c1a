(** C126: how far standardised values can be from 0, in exact arithmetic. *)
From Coq Require Import Reals Psatz.
From Verif Require Export P_PrepMain.
From Verif Require Import P_ErrorsMain P_UnitsMain.
From stdpp Require Import strings list.
From Verif Require Import M_Prep P_Auto4 P_Check.
Local Open Scope R_scope.

(** The values at distance at least [k] from 0. *)
Definition far (k : R) (xs : list R) : list R := List.filter (fun x => if Rle_dec k (Rabs x) then true else false) xs.

Lemma sum_sq_var xs : xs <> [] -> r_mean xs = 0 -> r_sum ((fun x => x * x) <$> xs) = r_var xs * INR (length xs).
Proof.
  intros Hn Hm. rewrite <- (r_var_sum xs Hn), Hm. f_equal. apply list_fmap_ext. intros i x _. lra.
Qed.
Lemma one_value xs i z : r_sum xs = 0 -> xs !! i = Some z -> z * z * INR (length xs) <= (INR (length xs) - 1) * r_sum ((fun x => x * x) <$> xs).
Proof.
  intros Hs Hi. assert (HP : xs ≡ₚ z :: delete i xs) by by apply delete_Permutation.
  assert (HQ : (fun x => x * x) <$> xs ≡ₚ z * z :: ((fun x => x * x) <$> delete i xs)) by (rewrite HP at 1; done).
  rewrite (r_sum_perm _ _ HQ), r_sum_cons. rewrite (r_sum_perm _ _ HP), r_sum_cons in Hs.
  assert (HL : INR (length xs) = INR (length (delete i xs)) + 1) by (rewrite (Permutation_length HP); cbn [length]; by rewrite S_INR).
  pose proof (square_of_sum (delete i xs)) as HC. rewrite HL. replace (r_sum (delete i xs)) with (- z) in HC by lra. nra.
Qed.
Lemma far_sum k xs : 0 <= k -> INR (length (far k xs)) * (k * k) <= r_sum ((fun x => x * x) <$> xs).
Proof.
  intros Hk. induction xs as [|x xs IH]; [unfold far; cbn; rewrite Rmult_0_l; apply Rle_refl|]. cbn [fmap list_fmap]. rewrite r_sum_cons. cbn [far List.filter]. unfold far in *. cbn [List.filter].
  destruct (Rle_dec k (Rabs x)) as [H|H].
  - cbn [length]. rewrite S_INR. assert (k * k <= x * x); [|lra]. rewrite <- (Rabs_pos_eq (x * x)) by nra. rewrite Rabs_mult. apply Rmult_le_compat; lra.
  - nra.
Qed.
Lemma present_at (ws : list xr) i z : ws !! i = Some (XR z) -> exists j, present ws !! j = Some z.
Proof. intros H. apply elem_of_list_lookup. unfold present. apply elem_of_list_omap. exists (XR z). split; [by eapply elem_of_list_lookup_2|done]. Qed.
Lemma result_sums c vs : Forall finite_or_missing vs -> present vs <> [] -> let ws := present (exact_result std c vs) in
  length ws = length (present vs) /\ r_sum ws = 0 /\ r_sum ((fun x => x * x) <$> ws) <= INR (length ws).
Proof.
  intros H Hn ws. destruct (C50_standardised_main c vs H Hn) as (_ & _ & HL & HM & HV & HC). fold std in HL, HM, HV, HC. fold ws in HL, HM, HV, HC.
  assert (Hw : ws <> []) by (destruct ws; [by destruct (present vs)|done]). pose proof (length_pos ws Hw) as HP. split; [done|]. split.
  - unfold r_mean in HM. apply Rmult_integral in HM as [HM|HM]; [done|]. pose proof (Rinv_0_lt_compat _ HP). lra.
  - rewrite sum_sq_var by done. destruct (Req_EM_T (r_var (present vs)) 0) as [E|E].
    + apply r_var_0 in E; [|done]. specialize (HC E). assert (r_var ws = 0) as ->; [|lra]. apply r_var_0; [done|]. intros x y Hx Hy. rewrite Forall_forall in HC. by rewrite (HC x Hx), (HC y Hy).
    + rewrite HV; [lra|]. intros HA. apply E. by apply r_var_0.
Qed.
Lemma C126_bound_main : forall (c : string) (vs : list xr) (i : nat) (z : R), Forall finite_or_missing vs ->
  exact_result std c vs !! i = Some (XR z) -> z * z <= INR (length (present vs)) - 1.
Proof.
  intros c vs i z H Hi. destruct (present_at _ _ _ Hi) as [j Hj].
  destruct (decide (present vs = [])) as [E|Hn].
  - exfalso. unfold exact_result in Hi. rewrite list_lookup_fmap in Hi. apply fmap_Some in Hi as (v & Hv & Hi).
    destruct v as [r|s|]; [|by pose proof (Forall_lookup_1 _ _ _ _ H Hv)|unfold scale_value in Hi; cbn [a_add a_mul real_arith x_add x_mul] in Hi; discriminate Hi].
    assert (r ∈ present vs) as HH; [|rewrite E in HH; by apply elem_of_nil in HH]. unfold present. apply elem_of_list_omap. exists (XR r). split; [by eapply elem_of_list_lookup_2|done].
  - destruct (result_sums c vs H Hn) as (HL & HS & HQ). pose proof (one_value _ _ _ HS Hj) as HO. rewrite HL in HO, HQ. pose proof (length_pos _ Hn) as HP.
    assert (1 <= INR (length (present vs))). { destruct (present vs); [done|]. cbn [length]. rewrite S_INR. pose proof (pos_INR (length l)). lra. }
    apply (Rmult_le_reg_r (INR (length (present vs)))); [done|]. eapply Rle_trans; [exact HO|]. apply Rmult_le_compat_l; lra.
Qed.
Lemma C126_few_main : forall (c : string) (vs : list xr) (k : R), Forall finite_or_missing vs -> 0 < k ->
  INR (length (far k (present (exact_result std c vs)))) <= INR (length (present vs)) / (k * k).
Proof.
  intros c vs k H Hk. apply (Rmult_le_reg_r (k * k)); [nra|]. replace (INR (length (present vs)) / (k * k) * (k * k)) with (INR (length (present vs))) by (field; lra).
  eapply Rle_trans; [apply far_sum; lra|]. destruct (decide (present vs = [])) as [E|Hn].
  - assert (present (exact_result std c vs) = []) as ->; [|rewrite E; apply Rle_refl].
    destruct (present (exact_result std c vs)) as [|z l] eqn:EZ; [done|]. exfalso.
    assert (HI : z ∈ present (exact_result std c vs)) by (rewrite EZ; constructor). unfold present in HI. apply elem_of_list_omap in HI as (y & Hy & Ey). destruct y; [|done..]. injection Ey as ->.
    apply elem_of_list_lookup in Hy as [i Hi]. pose proof (C126_bound_main c vs i z H Hi) as HB. rewrite E in HB. change (INR (length (@nil R))) with 0 in HB. nra.
  - destruct (result_sums c vs H Hn) as (HL & HS & HQ). by rewrite HL in HQ.
Qed.
Lemma C126_ten_rows_main : forall (c : string) (vs : list xr) (i : nat) (z : R), Forall finite_or_missing vs -> (length vs <= 10)%nat ->
  exact_result std c vs !! i = Some (XR z) -> Rabs z <= 3.
Proof.
  intros c vs i z H HL Hi. pose proof (C126_bound_main c vs i z H Hi) as HB.
  assert (HN : INR (length (present vs)) <= 10).
  { replace 10 with (INR 10) by (rewrite INR_IZR_INZ; done). apply le_INR. etrans; [|exact HL]. unfold present. clear. induction vs as [|[r|s|] vs IH]; cbn; [lia..|]. lia. }
  apply Rabs_le. nra.
Qed.
(** One value apart from the others reaches the bound. *)
Lemma sum_zeros m n : r_sum ((fun x => (x - m) * (x - m)) <$> replicate n 0) = INR n * (m * m).
Proof. induction n as [|n IH]; [cbn [INR]; rewrite Rmult_0_l; done|]. cbn [replicate]. rewrite fmap_cons, r_sum_cons, S_INR, IH. lra. Qed.
Lemma C126_reached_main : forall (c : string) (n : nat), (2 <= n)%nat ->
  exists z, exact_result std c (XR 1 :: replicate (n - 1) (XR 0)) !! 0%nat = Some (XR z) /\ z * z = INR n - 1.
Proof.
  intros c n Hn. destruct n as [|n]; [lia|]. replace (S n - 1)%nat with n by lia.
  set (vs := XR 1 :: replicate n (XR 0)). assert (HP : present vs = 1 :: replicate n 0).
  { unfold vs. rewrite present_cons. f_equal. clear. induction n as [|n IH]; [done|]. cbn [replicate]. by rewrite present_cons, IH. }
  assert (HF : Forall finite_or_missing vs) by (constructor; [done|by apply Forall_replicate]).
  assert (Hne : present vs <> []) by by rewrite HP. destruct (std_fit vs HF Hne) as [E1 E2].
  assert (HN : 0 < INR n) by (apply lt_0_INR; lia).
  assert (HM : r_mean (present vs) = / (INR n + 1)).
  { rewrite HP. unfold r_mean. rewrite r_sum_cons, r_sum_const. cbn [length]. rewrite replicate_length, S_INR. field. lra. }
  assert (HV : r_var (present vs) = INR n / ((INR n + 1) * (INR n + 1))).
  { rewrite r_var_eq, HM, HP. rewrite fmap_cons, r_sum_cons, sum_zeros. cbn [length]. rewrite replicate_length, S_INR. field. lra. }
  eexists. split; [unfold exact_result; rewrite list_lookup_fmap; change (vs !! 0%nat) with (Some (XR 1)); cbn [fmap option_fmap option_map]; by rewrite (exact_value std c _ _ _ E1 E2)|].
  assert (HV0 : r_var (present vs) <> 0). { rewrite HV. apply Rgt_not_eq. apply Rdiv_lt_0_compat; nra. }
  pose proof (r_scale_sq (present vs) Hne HV0) as HS. rewrite HM. rewrite HV in HS.
  replace ((1 + - / (INR n + 1)) * r_scale (present vs) * ((1 + - / (INR n + 1)) * r_scale (present vs)))
    with (INR n * (INR n / ((INR n + 1) * (INR n + 1)) * (r_scale (present vs) * r_scale (present vs)))) by (field; lra).
  rewrite HS, S_INR. lra.
Qed.
Section wit.
Existing Instance ex_rt.
Lemma C126_check_main : Forall finite_or_missing [XR 5; XNaN; XR 0; XR 0; XR 0; XR 0] /\ length (present [XR 5; XNaN; XR 0; XR 0; XR 0; XR 0]) = 5%nat /\
  far 2 [2; 1; -3] = [2; -3] /\
  fit_trans std [fz 5; S754_nan; fz 0; fz 0; fz 0; fz 0] = Some (VFloat <$> [fz 2; S754_nan] ++ replicate 4 (f64_div (fz (-1)) (fz 2))).
Proof.
  split; [by repeat constructor|]. split; [done|]. split; [|by vm_compute]. unfold far. cbn.
  rewrite (Rabs_pos_eq 2), (Rabs_pos_eq 1), (Rabs_left (-3)) by lra. repeat destruct (Rle_dec _ _); try lra; done.
Qed.
End wit.
