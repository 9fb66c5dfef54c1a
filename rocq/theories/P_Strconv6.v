(** Seventeen digits are enough; which floats are written as integers. *)
From Coq Require Import Reals Psatz.
From Flocq Require Import Core BinarySingleNaN.
From Verif Require Import M_Strconv.
From stdpp Require Import strings pretty list.
From Verif Require Import P_Float P_FloatEx Spec_Json Spec_Strconv P_Csv4 P_Strconv P_Strconv2 P_Strconv3 P_Strconv4 P_Strconv5.
From Coq Require Import Strings.Ascii.
Local Open Scope Z_scope.
Local Instance s6_prec : FLX.Prec_gt_0 53 := eq_refl.
Local Instance s6_max : Prec_lt_emax 53 1024 := eq_refl.
Local Instance s6_exp : Valid_exp (FLT_exp (-1074) 53) := FLT_exp_valid (-1074) 53.
Notation F64 := (generic_format radix2 (FLT_exp (-1074) 53)).

(** ** Numbers close to a float64 *)
Lemma bpow_m53 k : bpow radix2 (k - 53) = (bpow radix2 k * / 9007199254740992)%R.
Proof. unfold Z.sub. rewrite bpow_plus. f_equal. Qed.
Lemma succ_gap X : (0 < X)%R -> (X + X * / 9007199254740992 <= succ radix2 (FLT_exp (-1074) 53) X)%R.
Proof.
  intros HX. rewrite succ_eq_pos by lra. rewrite ulp_neq_0 by lra. unfold cexp.
  destruct (mag radix2 X) as [ex Hex]. cbn [mag_val]. specialize (Hex ltac:(lra)). rewrite Rabs_right in Hex by lra.
  assert (bpow radix2 (ex - 53) <= bpow radix2 (FLT_exp (-1074) 53 ex))%R as H by (apply bpow_le; unfold FLT_exp; lia).
  rewrite bpow_m53 in H. lra.
Qed.
Lemma pred_gap X : (0 < X)%R -> (Ulp.pred radix2 (FLT_exp (-1074) 53) X <= X - X * / 9007199254740992)%R.
Proof.
  intros HX. rewrite pred_eq_pos by lra. unfold pred_pos. set (ex := mag radix2 X : Z).
  assert (Hex : (bpow radix2 (ex - 1) <= X < bpow radix2 ex)%R).
  { unfold ex. destruct (mag radix2 X) as [ex' Hex]. cbn [mag_val]. pose proof (Hex ltac:(lra)) as H. by rewrite Rabs_right in H by lra. }
  destruct (Req_bool_spec X (bpow radix2 (ex - 1))) as [E|E].
  - assert (bpow radix2 (ex - 1 - 53) <= bpow radix2 (FLT_exp (-1074) 53 (ex - 1)))%R as H by (apply bpow_le; unfold FLT_exp; lia).
    rewrite bpow_m53, <- E in H. fold ex. lra.
  - rewrite ulp_neq_0 by lra. unfold cexp. fold ex.
    assert (bpow radix2 (ex - 53) <= bpow radix2 (FLT_exp (-1074) 53 ex))%R as H by (apply bpow_le; unfold FLT_exp; lia).
    rewrite bpow_m53 in H. lra.
Qed.
Lemma rnd_close X c : (0 < X)%R -> F64 X -> (Rabs (c - X) <= X * / 20000000000000000)%R -> rnd64 c = X.
Proof.
  intros HX HF Hc. apply Rabs_le_inv in Hc. pose proof (succ_gap X HX) as HS. pose proof (pred_gap X HX) as HP. unfold rnd64.
  apply Rle_antisym.
  - apply round_N_le_midp; [exact s6_exp|exact HF|]. change (succ radix2 fexp64 X) with (succ radix2 (FLT_exp (-1074) 53) X). lra.
  - apply round_N_ge_midp; [exact s6_exp|exact HF|]. change (Ulp.pred radix2 fexp64 X) with (Ulp.pred radix2 (FLT_exp (-1074) 53) X). lra.
Qed.
Lemma rnd_opp r : rnd64 (- r) = (- rnd64 r)%R.
Proof. apply round_NE_opp. Qed.
Lemma rnd_sgn s r : rnd64 (sgn s * r) = (sgn s * rnd64 r)%R.
Proof. destruct s; unfold sgn; [replace (-1 * r)%R with (- r)%R by ring; rewrite rnd_opp; ring|by rewrite !Rmult_1_l]. Qed.
Lemma scaled_pos_spec s m e D k : is_f64 (S754_finite s m e) -> 0 < D ->
  scaled 10 s D k = S754_finite s m e <-> rnd64 (dec D k) = (IZR (Zpos m) * bpow radix2 e)%R.
Proof.
  intros Hx HD. rewrite scaled_finite_spec by done. change (IZR D * powerRZ 10 k)%R with (dec D k). rewrite rnd_sgn, f64_R_finite.
  destruct s; unfold sgn; split; lra.
Qed.
Lemma f64_F s m e : is_f64 (S754_finite s m e) -> F64 (IZR (Zpos m) * bpow radix2 e) /\ (0 < IZR (Zpos m) * bpow radix2 e)%R.
Proof.
  intros Hx. split; [|apply Rmult_lt_0_compat; [by apply IZR_lt|apply bpow_gt_0]].
  assert (H : is_f64 (S754_finite false m e)) by exact Hx. destruct (f64_format _ H eq_refl) as [E _].
  rewrite f64_R_finite in E. unfold sgn in E. rewrite Rmult_1_l in E. rewrite <- E. apply generic_format_round; [exact s6_exp|apply valid_rnd_N].
Qed.

(** ** Seventeen digits *)
Lemma shortest_17 s m e : is_f64 (S754_finite s m e) -> (ndigits (shortest s m e).1 <= 17)%nat.
Proof.
  intros Hx. destruct (f64_F s m e Hx) as [HF HX]. pose proof (expansion_exact m e) as [HN HE].
  destruct (expansion m e) as [N K]. cbn [fst snd] in *. change (IZR N * powerRZ 10 K)%R with (dec N K) in HE.
  destruct (ndigits_spec N HN) as (N1 & N2 & N3).
  destruct (Nat.le_gt_cases (ndigits N) 17) as [Hn|Hn].
  { destruct (shortest_minimal s m e Hx N K HN) as [H _]; [by apply scaled_exact|]. lia. }
  set (j := (ndigits N - 17)%nat). destruct (quot_low N HN j ltac:(lia)) as [Q1 Q2].
  replace (ndigits N - j)%nat with 17%nat in Q1, Q2 by lia. change (Z.of_nat 17) with 17 in Q1, Q2.
  assert (HT : 0 < 10 ^ Z.of_nat j) by (apply Z.pow_pos_nonneg; lia).
  set (t := 10 ^ Z.of_nat j) in *. set (q := N / t) in *. pose proof (Z.div_mod N t ltac:(lia)) as HM. fold q in HM.
  pose proof (Z.mod_pos_bound N t HT) as HR. set (r := N mod t) in *.
  assert (EN : (dec N K = dec q (K + Z.of_nat j) + IZR r * powerRZ 10 K)%R).
  { rewrite <- dec_shift by lia. unfold dec. rewrite <- Rmult_plus_distr_r, <- plus_IZR. do 2 f_equal. fold t. lia. }
  assert (EU : (dec (q + 1) (K + Z.of_nat j) = dec q (K + Z.of_nat j) + IZR t * powerRZ 10 K)%R).
  { rewrite <- !dec_shift by lia. unfold dec. rewrite <- Rmult_plus_distr_r, <- plus_IZR. do 2 f_equal. fold t. lia. }
  pose proof (powerRZ_10_pos K) as HK. set (u := powerRZ 10 K) in *.
  assert (HB : (10000000000000000 * (IZR t * u) <= dec N K)%R).
  { rewrite EN. rewrite <- dec_shift by lia. fold t. unfold dec. fold u. rewrite mult_IZR.
    assert (10000000000000000 <= IZR q)%R by (apply IZR_le in Q1; exact Q1).
    assert (0 < IZR t * u)%R by (apply Rmult_lt_0_compat; [by apply (IZR_lt 0)|done]).
    assert (0 <= IZR r * u)%R by (apply Rmult_le_pos; [apply (IZR_le 0); lia|lra]). nra. }
  assert (HC : forall D', 0 < D' -> (Rabs (dec D' (K + Z.of_nat j) - dec N K) <= / 2 * (IZR t * u))%R -> scaled 10 s D' (K + Z.of_nat j) = S754_finite s m e).
  { intros D' HD' Hd. apply scaled_pos_spec; [done..|]. apply rnd_close; [done..|]. rewrite <- HE. lra. }
  assert (HQ : 0 < q) by (assert (0 < 10 ^ (17 - 1)) by done; lia).
  assert (Hlast : forall D' k', 0 < D' -> scaled 10 s D' k' = S754_finite s m e -> D' < 10 ^ 17 -> (ndigits (shortest s m e).1 <= 17)%nat).
  { intros D' k' HD' HS HL. destruct (shortest_minimal s m e Hx D' k' HD' HS) as [H _]. pose proof (ndigits_le D' 17 HD' HL). lia. }
  destruct (decide (2 * r <= t)) as [H|H].
  - apply (Hlast q (K + Z.of_nat j)); [done| |done]. apply HC; [done|]. rewrite EN. apply IZR_le in H. rewrite mult_IZR in H.
    assert (0 <= IZR r * u)%R by (apply Rmult_le_pos; [apply (IZR_le 0); lia|lra]).
    assert (2 * IZR r * u <= IZR t * u)%R by (apply Rmult_le_compat_r; lra). rewrite Rabs_left1 by lra. lra.
  - assert (HS : scaled 10 s (q + 1) (K + Z.of_nat j) = S754_finite s m e).
    { apply HC; [lia|]. rewrite EN, EU. assert (H' : t <= 2 * r) by lia. apply IZR_le in H'. rewrite mult_IZR in H'.
      assert (IZR r * u <= IZR t * u)%R by (apply Rmult_le_compat_r; [lra|apply IZR_le; lia]).
      assert (IZR t * u <= 2 * IZR r * u)%R by (apply Rmult_le_compat_r; lra). rewrite Rabs_right by lra. lra. }
    destruct (decide (q + 1 = 10 ^ 17)) as [E|E]; [|apply (Hlast (q + 1) (K + Z.of_nat j)); [lia|done|lia]].
    apply (Hlast 1 (K + Z.of_nat j + 17)); [lia| |done]. rewrite <- HS. apply scaled_dec; [lia..|].
    rewrite <- dec_shift by lia. rewrite E. by rewrite Z.mul_1_l.
Qed.

(** ** Integers *)
Lemma shortest_exp_ge s m e : is_f64 (S754_finite s m e) -> (expansion m e).2 <= (shortest s m e).2.
Proof.
  intros Hx. pose proof (expansion_exact m e) as [HN HE]. unfold shortest. destruct (expansion m e) as [N K]. cbn [fst snd] in *.
  destruct (ndigits_spec N HN) as [Hn1 _].
  pose proof (shortest_from_ok s m e N K (ndigits N - 1) Hx HN HE) as HS.
  pose proof (shortest_from_bounds s (S754_finite s m e) N K (ndigits N - 1) HN ltac:(lia)) as [_ B].
  destruct (shortest_from _ _ _ _ _) as [D k]. cbn [fst snd] in *. pose proof (scaled_pos _ _ _ _ _ HS) as HD.
  pose proof (trim_bounds (ndigits D - 1) (D, k) HD) as [_ T]. cbn [fst snd] in *. lia.
Qed.
Lemma dec_0 z : dec z 0 = IZR z.
Proof. unfold dec. cbn [powerRZ]. ring. Qed.
Lemma int_F z : Z.abs z <= 2 ^ 53 -> F64 (IZR z).
Proof.
  intros Hz. apply generic_format_FLT. destruct (decide (Z.abs z = 2 ^ 53)) as [E|E].
  - exists (Float radix2 (Z.sgn z) 53); cbn [Fnum Fexp]; [|destruct z; cbn; lia|lia].
    unfold F2R. cbn [Fnum Fexp]. change (bpow radix2 53) with (IZR (2 ^ 53)). rewrite <- mult_IZR. f_equal. lia.
  - exists (Float radix2 z 0); cbn [Fnum Fexp]; [|change (radix2 ^ 53) with (2 ^ 53); lia|lia].
    unfold F2R. cbn [Fnum Fexp bpow]. ring.
Qed.
Lemma rnd_F r : F64 r -> rnd64 r = r.
Proof. intros H. apply round_generic; [apply valid_rnd_N|done]. Qed.
Lemma rnd_mono a b : (a <= b)%R -> (rnd64 a <= rnd64 b)%R.
Proof. intros H. apply round_le; [exact s6_exp|apply valid_rnd_N|done]. Qed.
(** [m * 2^e] is an integer if it is the nearest to one. *)
Lemma rnd_integer V m e : 0 < V -> -1074 <= e -> Zpos m < 2 ^ 53 -> rnd64 (IZR V) = (IZR (Zpos m) * bpow radix2 e)%R ->
  exists z, (IZR (Zpos m) * bpow radix2 e)%R = IZR z.
Proof.
  intros HV He Hm E. destruct (decide (0 <= e)) as [H|H].
  - exists (Zpos m * 2 ^ e). rewrite mult_IZR. f_equal. by rewrite <- IZR_Zpower.
  - exists V. rewrite <- E. apply rnd_F, int_F. enough (V < 2 ^ 53) by lia.
    apply Z.nle_gt. intros HV'. apply IZR_le in HV'. apply rnd_mono in HV'. rewrite (rnd_F (IZR (2 ^ 53))) in HV' by (by apply int_F). rewrite E in HV'.
    assert (bpow radix2 e <= 1)%R by (apply (bpow_le radix2 e 0); lia). apply IZR_lt in Hm.
    pose proof (bpow_gt_0 radix2 e). assert (0 < IZR (Zpos m))%R by (by apply (IZR_lt 0)). nra.
Qed.
Lemma integer_exponent s m e z : is_f64 (S754_finite s m e) -> (IZR (Zpos m) * bpow radix2 e)%R = IZR z -> 0 <= (shortest s m e).2.
Proof.
  intros Hx Ez. destruct (f64_F s m e Hx) as [HF HX]. destruct (f64_bounds s m e Hx) as [He Hm].
  destruct (shortest_ok s m e Hx) as [HS HP]. pose proof (shortest_end s m e Hx) as HM.
  apply Z.nlt_ge. intros Hk.
  assert (Hz : 0 < z) by (rewrite Ez in HX; by apply lt_IZR in HX).
  assert (Ez' : dec z 0 = (IZR (Zpos m) * bpow radix2 e)%R) by (by rewrite dec_0).
  destruct (shortest_minimal s m e Hx z 0 Hz) as [M1 M2]; [by apply scaled_exact|].
  set (p := shortest s m e) in *.
  destruct (Nat.le_gt_cases (ndigits z) (ndigits p.1)) as [Hn|Hn].
  - specialize (M2 Hn). rewrite (Rminus_diag_eq _ _ Ez'), Rabs_R0 in M2.
    pose proof (Rabs_pos (dec p.1 p.2 - IZR (Zpos m) * bpow radix2 e)).
    assert (E : dec p.1 p.2 = dec z 0).
    { rewrite Ez'. apply Rminus_diag_uniq. destruct (Req_dec (dec p.1 p.2 - IZR (Zpos m) * bpow radix2 e) 0) as [E|E]; [done|].
      apply Rabs_no_R0 in E. lra. }
    assert (p.1 = z * 10 ^ (- p.2)) as E'.
    { apply Z.le_antisymm; [apply (dec_ge p.2)|apply (dec_le p.2)]; try lia; rewrite Z.add_opp_diag_r; lra. }
    apply HM. rewrite E'. replace (- p.2) with (Z.succ (- p.2 - 1)) by lia. rewrite Z.pow_succ_r, (Z.mul_comm 10), Z.mul_assoc by lia. by apply Z.mod_mul.
  - destruct (decide (0 <= e)) as [H|H].
    + (* the expansion is an integer *)
      pose proof (shortest_exp_ge s m e Hx) as HK. fold p in HK. unfold expansion in HK. destruct e; cbn [snd] in HK; lia.
    + assert (Hz' : z < 2 ^ 53).
      { apply lt_IZR. rewrite <- Ez. apply IZR_lt in Hm. assert (bpow radix2 e <= 1)%R by (apply (bpow_le radix2 e 0); lia).
        pose proof (bpow_gt_0 radix2 e). assert (0 < IZR (Zpos m))%R by (by apply (IZR_lt 0)). nra. }
      destruct (ndigits_spec z Hz) as (Z1 & Z2 & Z3). destruct (ndigits_spec p.1 HP) as (P1 & P2 & P3).
      set (b := 10 ^ (Z.of_nat (ndigits z) - 2)).
      assert (Hb : 0 < b) by (apply Z.pow_pos_nonneg; lia).
      assert (Hbz : 10 * b <= z).
      { etrans; [|exact Z2]. unfold b. rewrite <- Z.pow_succ_r by lia. apply Z.pow_le_mono_r; lia. }
      assert (HV : (dec p.1 p.2 <= IZR b)%R).
      { rewrite <- dec_0. replace 0 with (p.2 + - p.2) by lia. apply dec_ge; [lia|].
        assert (10 ^ Z.of_nat (ndigits p.1) <= b * 10 ^ (- p.2)); [|lia]. unfold b. rewrite <- Z.pow_add_r by lia. apply Z.pow_le_mono_r; lia. }
      apply rnd_mono in HV. rewrite (rnd_F (IZR b)) in HV by (apply int_F; lia).
      apply scaled_pos_spec in HS; [|done..]. rewrite HS, Ez in HV. apply le_IZR in HV. lia.
Qed.
