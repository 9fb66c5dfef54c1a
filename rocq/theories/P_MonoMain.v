(** C125: scaling keeps the order of the values, in float64. *)
From Coq Require Import Reals Psatz.
From Flocq Require Import Core BinarySingleNaN.
From Verif Require Import P_Order P_Float P_FloatEx P_AssertsMain P_Check.
From Verif Require Export P_PrepMain.
From stdpp Require Import strings list.
From Verif Require Import M_Prep P_Auto4 P_Order P_Float P_FloatEx P_Check.
Local Open Scope R_scope.

Local Instance Hp53' : FLX.Prec_gt_0 53 := eq_refl.
Local Instance Hm53' : Prec_lt_emax 53 1024 := eq_refl.
Notation big := (bpow radix2 1024).
(** The value, infinities being 2^1024. *)
Definition xval (x : f64) : R := match x with S754_infinity s => if s then - big else big | _ => f64_R x end.
Definition clamp (r : R) : R := Rmax (- big) (Rmin big r).
Definition ok64 (x : f64) : Prop := valid_binary 53 1024 x = true /\ f64_isnan x = false.
Lemma big_pos : 0 < big.
Proof. apply bpow_gt_0. Qed.
Lemma fin_lt x : fin64 x -> Rabs (f64_R x) < big.
Proof. intros [V F]. pose proof (abs_B2R_lt_emax 53 1024 (SF2B x V)) as H. by rewrite B2R_SF2B in H. Qed.
Lemma clamp_mono a b : a <= b -> clamp a <= clamp b.
Proof. intros H. unfold clamp, Rmax, Rmin. repeat destruct (Rle_dec _ _); lra. Qed.
Lemma clamp_range a : - big <= clamp a <= big.
Proof. pose proof big_pos as HB. unfold clamp, Rmax, Rmin. repeat destruct (Rle_dec _ _); lra. Qed.
Lemma clamp_id a : Rabs a < big -> clamp a = a.
Proof. intros H. apply Rabs_lt_inv in H. unfold clamp. rewrite Rmin_right, Rmax_right; lra. Qed.
Lemma clamp_hi a : big <= a -> clamp a = big.
Proof. pose proof big_pos as HB. intros H. unfold clamp. rewrite Rmin_left, Rmax_right; lra. Qed.
Lemma clamp_lo a : a <= - big -> clamp a = - big.
Proof. pose proof big_pos as HB. intros H. unfold clamp. rewrite Rmin_right, Rmax_left; lra. Qed.
Lemma ok_cases x : ok64 x -> fin64 x \/ exists s, x = S754_infinity s.
Proof. intros [V N]. destruct x as [s|s| |s m e]; [by left|right; by exists s|done|by left]. Qed.
Lemma fin_xval x : fin64 x -> xval x = f64_R x.
Proof. intros [V F]. by destruct x. Qed.
Lemma xval_le x y : ok64 x -> ok64 y -> f64_le x y = true <-> xval x <= xval y.
Proof.
  intros Hx Hy. pose proof big_pos as HB. destruct (ok_cases x Hx) as [Fx|[s ->]], (ok_cases y Hy) as [Fy|[t ->]].
  - rewrite !fin_xval by done. destruct Fx, Fy. rewrite f64_le_R by done. split; [|apply Rle_bool_true]. destruct (Rle_bool_spec (f64_R x) (f64_R y)); [done|discriminate].
  - rewrite (fin_xval x) by done. pose proof (fin_lt x Fx) as H. apply Rabs_lt_inv in H. destruct Fx as [V F]. cbn [xval]. destruct t; (split; [|by (destruct x; done) || (intros; lra)]); destruct x; try done; intros; lra.
  - rewrite (fin_xval y) by done. pose proof (fin_lt y Fy) as H. apply Rabs_lt_inv in H. destruct Fy as [V F]. cbn [xval]. destruct s; (split; [|by (destruct y; done) || (intros; lra)]); destruct y; try done; intros; lra.
  - destruct s, t; cbn [xval]; (split; intros HH; [|try done; exfalso; lra]); try (by discriminate HH); lra.
Qed.
Lemma sign_pos x : fin64 x -> (match x with S754_zero s | S754_infinity s | S754_finite s _ _ => s | S754_nan => false end) = false -> 0 <= f64_R x.
Proof. intros [V F] H. destruct x as [s|s| |s m e]; try done; unfold f64_R; cbn; [lra|]. rewrite H. apply F2R_ge_0. done. Qed.
Lemma sign_neg x : fin64 x -> (match x with S754_zero s | S754_infinity s | S754_finite s _ _ => s | S754_nan => false end) = true -> f64_R x <= 0.
Proof. intros [V F] H. destruct x as [s|s| |s m e]; try done; unfold f64_R; cbn; [lra|]. rewrite H. apply F2R_le_0. done. Qed.
Lemma rnd_0 : rnd64 0 = 0.
Proof. apply round_0, valid_rnd_N. Qed.
Lemma sign_SF2B x V : Bsign (SF2B (prec:=53) (emax:=1024) x V) = match x with S754_zero s | S754_infinity s | S754_finite s _ _ => s | S754_nan => false end.
Proof. by destruct x. Qed.
Lemma overflow_xval (b : binary_float 53 1024) s r : B2SF b = binary_overflow 53 1024 mode_NE s -> ~ Rabs r < big -> (s = false -> 0 <= r) -> (s = true -> r <= 0) ->
  ok64 (B2SF b) /\ xval (B2SF b) = clamp r.
Proof.
  intros E H H1 H2. rewrite E. destruct s; cbn [binary_overflow overflow_to_inf xval]; (split; [done|]).
  - symmetry. apply clamp_lo. specialize (H2 eq_refl). rewrite Rabs_left1 in H by done. lra.
  - symmetry. apply clamp_hi. specialize (H1 eq_refl). rewrite Rabs_pos_eq in H by done. lra.
Qed.
Lemma add_xval x y : fin64 x -> fin64 y -> ok64 (f64_add x y) /\ xval (f64_add x y) = clamp (rnd64 (f64_R x + f64_R y)).
Proof.
  intros Fx Fy. destruct (Rlt_dec (Rabs (rnd64 (f64_R x + f64_R y))) big) as [H|H].
  - destruct (add_round x y Fx Fy) as [A _]. destruct (A H) as [F R]. rewrite fin_xval, clamp_id by done. split; [|done]. destruct F as [V F]. split; [done|]. by destruct (f64_add x y).
  - pose proof Fx as [Vx Ex]. pose proof Fy as [Vy Ey]. rewrite (f64_add_equiv x y Vx Vy).
    pose proof (Bplus_correct 53 1024 _ _ mode_NE (SF2B x Vx) (SF2B y Vy)) as HB. rewrite !is_finite_SF2B, !B2R_SF2B in HB. specialize (HB Ex Ey).
    change (round radix2 fexp64 (round_mode mode_NE) (SF2R radix2 x + SF2R radix2 y)) with (rnd64 (f64_R x + f64_R y)) in HB.
    rewrite Rlt_bool_false in HB by lra. destruct HB as [HB HS]. rewrite !sign_SF2B in HS. eapply overflow_xval; [exact HB|done| |]; rewrite sign_SF2B; intros E; rewrite <- rnd_0; apply rnd_le.
    + pose proof (sign_pos x Fx E). rewrite HS in E. pose proof (sign_pos y Fy E). lra.
    + pose proof (sign_neg x Fx E). rewrite HS in E. pose proof (sign_neg y Fy E). lra.
Qed.
Lemma mul_xval x k : fin64 x -> fin64 k -> 0 < f64_R k -> ok64 (f64_mul x k) /\ xval (f64_mul x k) = clamp (rnd64 (f64_R x * f64_R k)).
Proof.
  intros Fx Fk Hk. pose proof Fx as [Vx Ex]. pose proof Fk as [Vy Ey]. rewrite (f64_mul_equiv x k Vx Vy).
  pose proof (Bmult_correct 53 1024 _ _ mode_NE (SF2B x Vx) (SF2B k Vy)) as HB. rewrite !is_finite_SF2B, !B2R_SF2B in HB.
  change (round radix2 fexp64 (round_mode mode_NE) (SF2R radix2 x * SF2R radix2 k)) with (rnd64 (f64_R x * f64_R k)) in HB.
  assert (Sk : (match k with S754_zero s | S754_infinity s | S754_finite s _ _ => s | S754_nan => false end) = false).
  { destruct (match k with S754_zero s | S754_infinity s | S754_finite s _ _ => s | S754_nan => false end) eqn:E; [|done]. pose proof (sign_neg k Fk E). lra. }
  destruct (Rlt_dec (Rabs (rnd64 (f64_R x * f64_R k))) big) as [H|H].
  - rewrite Rlt_bool_true in HB by done. destruct HB as (H1 & H2 & _). rewrite Ex, Ey in H2. destruct (fin_of _ _ H1 H2) as [F R]. rewrite fin_xval, clamp_id by done. split; [|exact R].
    destruct F as [V F]. split; [done|]. by destruct (B2SF _).
  - rewrite Rlt_bool_false in HB by lra. eapply overflow_xval; [exact HB|done| |]; rewrite !sign_SF2B, Sk, xorb_false_r; intros E; rewrite <- rnd_0; apply rnd_le.
    + pose proof (sign_pos x Fx E). nra.
    + pose proof (sign_neg x Fx E). nra.
Qed.
Lemma mul_inf k s : fin64 k -> 0 < f64_R k -> f64_mul (S754_infinity s) k = S754_infinity s.
Proof.
  intros F H. destruct k as [t|t| |t m e]; [unfold f64_R in H; cbn in H; lra|by destruct F|by destruct F|]. destruct t; [|by destruct s].
  pose proof (sign_neg _ F eq_refl). lra.
Qed.
Lemma mono_op (op : f64 -> f64) (g : R -> R) : (forall a b, a <= b -> g a <= g b) -> (forall x, fin64 x -> ok64 (op x) /\ xval (op x) = clamp (g (f64_R x))) ->
  (forall s, op (S754_infinity s) = S754_infinity s) -> forall x y, ok64 x -> ok64 y -> f64_le x y = true -> ok64 (op x) /\ ok64 (op y) /\ f64_le (op x) (op y) = true.
Proof.
  intros Hg Hf Hi x y Hx Hy H. assert (O : forall x, ok64 x -> ok64 (op x)). { intros z Hz. destruct (ok_cases z Hz) as [F|[s ->]]; [by apply Hf|]. by rewrite Hi. }
  split; [by apply O|]. split; [by apply O|]. apply xval_le; [by apply O|by apply O|]. apply xval_le in H; [|done|done]. pose proof big_pos as HB.
  destruct (ok_cases x Hx) as [Fx|[s ->]], (ok_cases y Hy) as [Fy|[t ->]].
  - rewrite (proj2 (Hf x Fx)), (proj2 (Hf y Fy)). apply clamp_mono, Hg. by rewrite !fin_xval in H.
  - rewrite (proj2 (Hf x Fx)), Hi. pose proof (clamp_range (g (f64_R x))). rewrite fin_xval in H by done. pose proof (fin_lt x Fx) as HL. apply Rabs_lt_inv in HL. destruct t; cbn [xval] in *; lra.
  - rewrite (proj2 (Hf y Fy)), Hi. pose proof (clamp_range (g (f64_R y))). rewrite (fin_xval y) in H by done. pose proof (fin_lt y Fy) as HL. apply Rabs_lt_inv in HL. destruct s; cbn [xval] in *; lra.
  - rewrite !Hi. done.
Qed.

Lemma C125_monotone_main : forall (sc : scaler f64_arith) (c : string) (x y : f64),
  fin64 (shift_of sc c) -> fin64 (factor_of sc c) -> 0 < f64_R (factor_of sc c) ->
  valid_binary 53 1024 x = true -> valid_binary 53 1024 y = true -> f64_le x y = true ->
  f64_le (scale_value sc c x) (scale_value sc c y) = true.
Proof.
  intros sc c x y Fs Fk Hk Vx Vy H. destruct (f64_le_nan x y H) as [Nx Ny].
  destruct (mono_op (fun v => f64_add v (shift_of sc c)) (fun r => rnd64 (r + f64_R (shift_of sc c)))) with (x := x) (y := y) as (Ox & Oy & HL); try done.
  - intros a b Hab. apply rnd_le. lra.
  - intros z Fz. by apply add_xval.
  - intros s. destruct Fs as [_ Fs]. by destruct (shift_of sc c).
  - destruct (mono_op (fun v => f64_mul v (factor_of sc c)) (fun r => rnd64 (r * f64_R (factor_of sc c)))) with (x := f64_add x (shift_of sc c)) (y := f64_add y (shift_of sc c)) as (_ & _ & HM); try done.
    + intros a b Hab. apply rnd_le. nra.
    + intros z Fz. by apply mul_xval.
    + intros s. by apply mul_inf.
Qed.

(** ** The factors of fitted scalers are not negative *)
Lemma round_sign sx mx ex lx s m e : SpecFloat.binary_round_aux 53 1024 sx mx ex lx = S754_finite s m e -> s = sx.
Proof.
  unfold SpecFloat.binary_round_aux. destruct (SpecFloat.shr_fexp 53 1024 mx ex lx) as [r1 e1]. destruct (SpecFloat.shr_fexp 53 1024 _ e1 loc_Exact) as [r2 e2].
  destruct (shr_m r2) as [|p|p]; try discriminate. destruct (Z.leb _ _); [|discriminate]. by intros [= -> _ _].
Qed.
Lemma sqrt_sign x s m e : SFsqrt 53 1024 x = S754_finite s m e -> s = false.
Proof.
  destruct x as [t|t| |t p q]; cbn [SFsqrt]; [discriminate|by destruct t|discriminate|]. destruct t; [discriminate|].
  destruct (SFsqrt_core_binary 53 1024 (Z.pos p) q) as [[mz ez] lz]. apply round_sign.
Qed.
Lemma pos_of x : fin64 x -> f64_R x <> 0 -> (forall s m e, x = S754_finite s m e -> s = false) -> 0 < f64_R x.
Proof.
  intros F Hn H. destruct x as [t|t| |t m e]; [by (unfold f64_R in Hn; cbn in Hn)|by destruct F|by destruct F|]. rewrite (H _ _ _ eq_refl) in *.
  pose proof (sign_pos _ F eq_refl). lra.
Qed.
Lemma min_max_le vs : Forall (fun v => valid_binary 53 1024 v = true) vs ->
  min_max f64_arith vs = (S754_infinity false, S754_infinity true) \/
  (ok64 (min_max f64_arith vs).1 /\ ok64 (min_max f64_arith vs).2 /\ f64_le (min_max f64_arith vs).1 (min_max f64_arith vs).2 = true).
Proof.
  intros H. assert (G : forall (p : f64 * f64), ok64 p.1 -> ok64 p.2 -> p = (S754_infinity false, S754_infinity true) \/ f64_le p.1 p.2 = true ->
    let q := foldl (fun p v => (if f64_lt v p.1 then v else p.1, if f64_lt p.2 v then v else p.2)) p vs in
    ok64 q.1 /\ ok64 q.2 /\ (q = (S754_infinity false, S754_infinity true) \/ f64_le q.1 q.2 = true)).
  { induction H as [|v vs Hv _ IH]; intros [mn mx] H1 H2 H3; [done|]. cbn [foldl fst snd] in *. destruct (f64_isnan v) eqn:Nv.
    - replace (f64_lt v mn) with false by (by destruct v). replace (f64_lt mx v) with false by (destruct v; try done; by destruct mx as [[]|[]| |[]]). by apply IH.
    - assert (Ov : ok64 v) by done. apply IH; cbn [fst snd]; [by destruct (f64_lt v mn)|by destruct (f64_lt mx v)|]. right. destruct H1 as [_ N1], H2 as [_ N2]. apply f64_le_trans with v.
      + destruct (f64_lt v mn) eqn:E; [by apply f64_le_refl|]. by apply f64_lt_le.
      + destruct (f64_lt mx v) eqn:E; [by apply f64_le_refl|]. by apply f64_lt_le. }
  destruct (G (S754_infinity false, S754_infinity true)) as (A & B & [C|C]); [done|done|by left|by left|by right].
Qed.
Lemma sub_pos x y : ok64 x -> ok64 y -> f64_le y x = true -> fin64 (f64_sub x y) -> f64_R (f64_sub x y) <> 0 -> 0 < f64_R (f64_sub x y).
Proof.
  intros Hx Hy HL F Hn. destruct (ok_cases x Hx) as [Fx|[s ->]]; [|destruct F as [_ F]; destruct y as [|[]| |]; by destruct s].
  destruct (ok_cases y Hy) as [Fy|[t ->]]; [|destruct F as [_ F]; destruct x as [|[]| |]; by destruct t].
  pose proof Fx as [Vx Ex]. pose proof Fy as [Vy Ey]. rewrite f64_le_R in HL by done. destruct (Rle_bool_spec (f64_R y) (f64_R x)) as [HR|]; [|discriminate].
  destruct (Rlt_dec (Rabs (rnd64 (f64_R x - f64_R y))) big) as [H|H].
  - destruct (sub_round x y Fx Fy H) as [_ R]. assert (0 <= f64_R (f64_sub x y)); [|lra]. rewrite R, <- rnd_0. apply rnd_le. lra.
  - exfalso. rewrite (f64_sub_equiv x y Vx Vy) in F.
    pose proof (Bminus_correct 53 1024 _ _ mode_NE (SF2B x Vx) (SF2B y Vy)) as HB. rewrite !is_finite_SF2B, !B2R_SF2B in HB. specialize (HB Ex Ey).
    change (round radix2 fexp64 (round_mode mode_NE) (SF2R radix2 x - SF2R radix2 y)) with (rnd64 (f64_R x - f64_R y)) in HB.
    rewrite Rlt_bool_false in HB by lra. destruct HB as [HB _]. destruct F as [_ F]. pose proof (eq_trans (eq_sym (f_equal is_finite_SF HB)) F) as E. discriminate E.
Qed.
Lemma C125_fitted_main : forall (opt : scaler_opt) (t : table) (sc : scaler f64_arith) (c : string), fits opt t sc ->
  Forall (fun v => valid_binary 53 1024 v = true) (t_floats t c) ->
  fin64 (shift_of sc c) -> fin64 (factor_of sc c) -> f64_R (factor_of sc c) <> 0 ->
  forall x y : f64, valid_binary 53 1024 x = true -> valid_binary 53 1024 y = true -> f64_le x y = true ->
  f64_le (scale_value sc c x) (scale_value sc c y) = true.
Proof.
  intros opt t sc c Hfit HV Fs Fk Hn x y Vx Vy HL. apply C125_monotone_main; try done.
  assert (P1 : 0 < f64_R (a_of f64_arith 1)). { destruct (f64_of_Z_exact 1 ltac:(lia)) as (R1 & _ & _). change (0 < f64_R (f64_of_Z 1)). rewrite R1. lra. }
  destruct (Hfit c) as [_ E]. pose proof (f_equal (default (a_of f64_arith 1 : f64)) E) as EF. change (factor_of sc c = default (a_of f64_arith 1 : f64) (p ← spec_fit opt t c; p.2)) in EF.
  set (k := factor_of sc c) in *. clearbody k. subst k. unfold spec_fit in *.
  destruct (decide (is_Some (t_cols t !! (KFloat, c)))); [|exact P1]. cbn [mbind option_bind] in *. unfold fit_col in *. set (vs := t_floats t c) in *.
  destruct (so_minmax opt).
  - pose proof (min_max_le vs HV) as HM. destruct (min_max f64_arith vs) as [mn mx]. cbn [fst snd default] in *. destruct HM as [HM|(O1 & O2 & HM)].
    + injection HM as -> ->. by destruct Fk.
    + by apply (sub_pos mx mn).
  - destruct (so_scaling opt || so_centering opt) eqn:EO; [|exact P1]. cbn [snd] in *. destruct (so_scaling opt); [|exact P1]. cbn [default] in *.
    apply pos_of; [done|done|]. intros s m e Es. unfold scale_of in Es. destruct (a_eq f64_arith _ _) in Es; by apply sqrt_sign in Es.
Qed.
Section wit.
Existing Instance ex_rt.
Lemma C125_check_main : (let '(d, h) := one_col [fz 1; S754_nan; fz 3] in let sc := run_fit (ScalerOpt false true true) d h in
  shift_of sc "x" = fz (-2) /\ factor_of sc "x" = fz 1) /\ fit_trans (ScalerOpt false true true) [fz 1; S754_nan; fz 3; S754_infinity true] = Some (VFloat <$> [S754_nan; S754_nan; S754_nan; S754_nan]).
Proof. split; [split; by vm_compute|by vm_compute]. Qed.
(** Different values may become equal. *)
Lemma C125_strict_refuted_main : exists (vs ws : list f64) (x y : f64), vs !! 0%nat = Some x /\ vs !! 1%nat = Some y /\ f64_lt x y = true /\
  fit_trans (ScalerOpt false true true) vs = Some (VFloat <$> ws) /\ ws !! 0%nat = ws !! 1%nat.
Proof.
  exists [fz 0; fz 1; fz (2 ^ 60)], (match fit_trans (ScalerOpt false true true) [fz 0; fz 1; fz (2 ^ 60)] with Some l => float_of <$> l | None => [] end), (fz 0), (fz 1).
  split; [done|]. split; [done|]. split; [by vm_compute|]. split; by vm_compute.
Qed.
End wit.
