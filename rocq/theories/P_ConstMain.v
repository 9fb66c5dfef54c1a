(** Constant columns in float64: C72. *)
From Coq Require Import Reals Psatz.
From Flocq Require Import Core BinarySingleNaN.
From Verif Require Import P_Float P_FloatEx P_PrepMain P_Check.
Local Open Scope R_scope.

(** ** The fit of a constant column whose multiples are exact *)
Section const.
Context (x : f64) (m e : Z).
Context (Hx : fin64 x) (Hm : f64_R x = IZR m * bpow radix2 e) (He : (-1074 <= e <= 970)%Z).
Notation present_n vs := (length (List.filter (fun v => negb (f64_isnan v)) vs)).

Lemma x_nan : f64_isnan x = false.
Proof. destruct Hx as [_ F]. by destruct x. Qed.
Lemma fmt_small z : (Z.abs (z * m) <= 2 ^ 53)%Z -> fmt (IZR z * f64_R x).
Proof. intros Hz. rewrite Hm, <- Rmult_assoc, <- mult_IZR. by apply fmt_mult. Qed.
Lemma sum_const vs : Forall (fun v => v = x \/ f64_isnan v = true) vs -> forall (s : f64) (k : Z), fin64 s -> f64_R s = IZR k * f64_R x -> (0 <= k)%Z ->
  ((k + Z.of_nat (present_n vs)) * Z.abs m <= 2 ^ 53)%Z ->
  exists s', foldl (fun (p : f64 * Z) (v : f64) => if f64_isnan v then p else (f64_add p.1 v, (p.2 + 1)%Z)) (s, k) vs = (s', (k + Z.of_nat (present_n vs))%Z) /\
    fin64 s' /\ f64_R s' = IZR (k + Z.of_nat (present_n vs)) * f64_R x.
Proof.
  induction 1 as [|v vs Hv Hvs IH]; intros s k Fs Rs Hk Hb; cbn [List.filter length foldl].
  { exists s. rewrite Z.add_0_r. done. }
  destruct (f64_isnan v) eqn:Ev; cbn [negb].
  { apply IH; [done..|]. cbn in Hb. rewrite Ev in Hb. done. }
  destruct Hv as [->|?]; [|congruence]. cbn in Hb. rewrite Ev in Hb. cbn [negb length] in Hb.
  assert (Hf : fmt (f64_R s + f64_R x)).
  { rewrite Rs. replace (IZR k * f64_R x + f64_R x) with (IZR (k + 1) * f64_R x) by (rewrite plus_IZR; ring). apply fmt_small. rewrite Z.abs_mul. nia. }
  destruct (add_exact s x Fs Hx Hf) as [Fa Ra].
  destruct (IH (f64_add s x) (k + 1)%Z) as (s' & E1 & E2 & E3); [done|rewrite Ra, Rs, plus_IZR; ring|lia|lia|].
  exists s'. cbn [fst snd length]. replace (k + Z.of_nat (S (present_n vs)))%Z with (k + 1 + Z.of_nat (present_n vs))%Z by lia. done.
Qed.
Lemma zero_sub s1 s2 : fin64 s1 -> fin64 s2 -> f64_R s1 = f64_R s2 -> exists s, f64_sub s1 s2 = S754_zero s.
Proof.
  intros F1 F2 E. assert (Hf : fmt (f64_R s1 - f64_R s2)) by (rewrite E, Rminus_diag_eq by done; apply fmt_0).
  destruct (sub_exact s1 s2 F1 F2 Hf) as [F R]. apply R_zero; [done|]. rewrite R, E. ring.
Qed.
Lemma squares_const mean vs : fin64 mean -> f64_R mean = f64_R x -> Forall (fun v => v = x \/ f64_isnan v = true) vs ->
  square_sum f64_arith mean vs = S754_zero false.
Proof.
  intros Fm Rm H. unfold square_sum. change (a_of f64_arith 0) with (S754_zero false : f64).
  induction H as [|v vs Hv Hvs IH]; [done|]. cbn [foldl]. change (a_isnan f64_arith v) with (f64_isnan v).
  destruct (f64_isnan v) eqn:Ev; [done|]. destruct Hv as [->|?]; [|congruence].
  destruct (zero_sub x mean Hx Fm (eq_sym Rm)) as [s Es].
  change (a_sub f64_arith x mean) with (f64_sub x mean). rewrite Es.
  replace (a_add f64_arith (S754_zero false : f64) (a_mul f64_arith (S754_zero s : f64) (S754_zero s : f64))) with (S754_zero false : f64); [done|].
  by destruct s.
Qed.
Lemma fit_const vs : Forall (fun v => v = x \/ f64_isnan v = true) vs -> (1 <= present_n vs)%nat ->
  (Z.of_nat (present_n vs) * Z.abs m <= 2 ^ 53)%Z -> (Z.of_nat (present_n vs) < 2 ^ 53)%Z ->
  exists shift scale, fit_col f64_arith (ScalerOpt false true true) vs = (Some shift, Some scale) /\
    fin64 shift /\ f64_R shift = - f64_R x /\ fin64 scale.
Proof.
  intros H Hp Hb Hb2. unfold fit_col. cbn [so_minmax so_scaling so_centering orb].
  assert (F0 : fin64 (f64_of_Z 0)) by done. assert (R0 : f64_R (f64_of_Z 0) = IZR 0 * f64_R x) by (rewrite Rmult_0_l; done).
  destruct (sum_const vs H (f64_of_Z 0) 0 F0 R0 ltac:(lia) ltac:(lia)) as (s & E & Fs & Rs). rewrite Z.add_0_l in E, Rs.
  set (n := Z.of_nat (present_n vs)) in *.
  assert (Es : sum_n f64_arith vs = (s, n)) by exact E.
  destruct (f64_of_Z_exact n ltac:(lia)) as (Rn & Fn1 & Fn2).
  assert (Hn0 : IZR n <> 0) by (apply not_0_IZR; lia).
  assert (Hq : f64_R s / f64_R (f64_of_Z n) = f64_R x) by (rewrite Rs, Rn; field; done).
  destruct (div_exact s (f64_of_Z n) Fs (conj Fn2 Fn1)) as [Fd Rd]; [by rewrite Rn|rewrite Hq, <- (Rmult_1_l (f64_R x)); apply (fmt_small 1); lia|].
  rewrite Hq in Rd.
  assert (Em : mean_of f64_arith vs = f64_div s (f64_of_Z n)) by (unfold mean_of; rewrite Es; done).
  assert (Eq : square_sum f64_arith (mean_of f64_arith vs) vs = S754_zero false) by (rewrite Em; by apply squares_const).
  destruct (opp_exact _ Fd) as [Fo Ro].
  eexists _, _. split; [reflexivity|]. rewrite Eq, Es. cbn [snd].
  split; [rewrite Em; exact Fo|]. split; [rewrite Em; etrans; [exact Ro|]; by rewrite Rd|].
  assert (Hsc : scale_of f64_arith (S754_zero false : f64) n = SFsqrt 53 1024 (f64_div (f64_of_Z (n + 1)) (f64_of_Z 1))) by done.
  rewrite Hsc. destruct (f64_of_Z_exact (n + 1) ltac:(lia)) as (Rn1 & Fn11 & Fn12).
  destruct (f64_of_Z_exact 1 ltac:(lia)) as (R1 & F11 & F12).
  destruct (div_exact (f64_of_Z (n + 1)) (f64_of_Z 1) (conj Fn12 Fn11) (conj F12 F11)) as [Fd' Rd'].
  { rewrite R1. lra. }
  { rewrite Rn1, R1. replace (IZR (n + 1) / 1) with (IZR (n + 1) * bpow radix2 0) by (cbn; field). apply fmt_mult; lia. }
  apply sqrt_fin; [done|]. rewrite Rd', Rn1, R1. apply (Rdiv_lt_0_compat (IZR (n + 1)) 1); [apply IZR_lt; lia|lra].
Qed.
End const.

Lemma C72_float64_partial_main : forall (t : table) (c : string) (sc : scaler f64_arith) (x : f64) (m e : Z),
  fits (ScalerOpt false true true) t sc -> is_Some (t_cols t !! (KFloat, c)) ->
  (* the column holds x or NaN *)
  valid_binary 53 1024 x = true -> is_finite_SF x = true ->
  Forall (fun v => v = x \/ f64_isnan v = true) (t_floats t c) ->
  (* x = m 2^e, so short that its multiples are float64 *)
  f64_R x = IZR m * bpow radix2 e -> (-1074 <= e <= 970)%Z ->
  (let n := Z.of_nat (length (List.filter (fun v => negb (f64_isnan v)) (t_floats t c))) in
   n * Z.abs m <= 2 ^ 53 /\ n < 2 ^ 53)%Z ->
  forall v, v ∈ t_floats t c -> if f64_isnan v then f64_isnan (spec_scaled sc c v) = true else exists s, spec_scaled sc c v = S754_zero s.
Proof.
  intros t c sc x m e Hfit Hc Vx Fx Hvs Hm He [Hb Hb2] v Hv. destruct (f64_isnan v) eqn:Ev.
  - destruct v as [s|s| |s m' e']; done.
  - assert (Hp : (1 <= length (List.filter (fun v => negb (f64_isnan v)) (t_floats t c)))%nat).
    { clear -Hv Ev. induction (t_floats t c) as [|w l IH]; [by apply elem_of_nil in Hv|]. cbn. apply elem_of_cons in Hv as [<-|Hv].
      - rewrite Ev. cbn. lia.
      - destruct (negb (f64_isnan w)); cbn; [lia|by apply IH]. }
    destruct (fit_const x m e (conj Vx Fx) Hm He (t_floats t c) Hvs Hp Hb Hb2) as (shift & scale & E & Fs & Rs & Fc).
    destruct (Hfit c) as [H1 H2]. unfold spec_fit in H1, H2. rewrite decide_True in H1, H2 by done. cbn [mbind option_bind] in H1, H2.
    rewrite E in H1, H2. cbn [fst snd] in H1, H2. unfold spec_scaled.
    assert (v = x) as ->. { rewrite Forall_forall in Hvs. destruct (Hvs v Hv); [done|congruence]. }
    assert (Hf : fmt (f64_R x + f64_R shift)) by (rewrite Rs, Rplus_opp_r; apply fmt_0).
    destruct (add_exact x shift (conj Vx Fx) Fs Hf) as [Fa Ra].
    destruct (R_zero _ Fa) as [s Es]; [rewrite Ra, Rs; ring|].
    assert (E1 : default f64_zero (sc_shift sc !! c) = shift) by (etrans; [exact (f_equal (default f64_zero) H1)|done]).
    assert (E2 : default f64_one (sc_scale sc !! c) = scale) by (etrans; [exact (f_equal (default f64_one) H2)|done]).
    exists (xorb s (match scale with S754_zero s' | S754_finite s' _ _ => s' | _ => false end)).
    etrans; [exact (f_equal2 f64_mul (f_equal (f64_add x) E1) E2)|]. etrans; [exact (f_equal (fun y => f64_mul y scale) Es)|].
    destruct Fc as [_ Fc]. by destruct scale.
Qed.
(** 0.375 = 3/8, three times, and a missing value. *)
Definition c72_x : f64 := f64_div (fz 3) (fz 8).
Lemma C72_check2_main : f64_R c72_x = IZR 3 * bpow radix2 (-3) /\ (3 * Z.abs 3 <= 2 ^ 53)%Z /\
  fit_trans (ScalerOpt false true true) [c72_x; c72_x; S754_nan; c72_x] = Some (VFloat <$> [fz 0; fz 0; S754_nan; fz 0]).
Proof.
  split; [|split; [lia|by vm_compute]]. assert (c72_x = S754_finite false 6755399441055744 (-54)) as -> by by vm_compute.
  unfold f64_R, SF2R, F2R, cond_Zopp, Fnum, Fexp. replace (Z.pos 6755399441055744) with (3 * Zpower radix2 51)%Z by done.
  rewrite mult_IZR, IZR_Zpower, Rmult_assoc, <- bpow_plus by lia. done.
Qed.
