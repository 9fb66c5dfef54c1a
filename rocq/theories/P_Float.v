(** Facts on float64 that need real numbers: exact conversion of small
    integers, the size of a product with a ratio. *)
From Coq Require Import Reals Psatz.
From Flocq Require Import Core BinarySingleNaN.
From Verif Require Import M_Frame P_Order.

Local Instance Hprec : FLX.Prec_gt_0 53 := eq_refl.
Local Instance Hmax : Prec_lt_emax 53 1024 := eq_refl.

Notation fexp64 := (SpecFloat.fexp 53 1024).
(** Rounding to binary64, nearest even. *)
Definition rnd64 (x : R) : R := round radix2 fexp64 ZnearestE x.
Definition f64_R (x : f64) : R := SF2R radix2 x.

Lemma round_nearest_even_equiv s m l :
  round_nearest_even m l = choice_mode mode_NE s m l.
Proof. destruct l as [|[]]; try reflexivity. simpl. unfold Round.cond_incr. now case Z.even. Qed.
Lemma binary_round_aux_equiv sx mx ex lx :
  SpecFloat.binary_round_aux 53 1024 sx mx ex lx
  = BinarySingleNaN.binary_round_aux 53 1024 mode_NE sx mx ex lx.
Proof.
  unfold SpecFloat.binary_round_aux, BinarySingleNaN.binary_round_aux.
  destruct (shr_fexp _ _ _ _ _) as [mrs e]. now rewrite (round_nearest_even_equiv sx).
Qed.
Lemma binary_normalize_equiv m e szero :
  SpecFloat.binary_normalize 53 1024 m e szero
  = B2SF (BinarySingleNaN.binary_normalize 53 1024 Hprec Hmax mode_NE m e szero).
Proof.
  assert (forall s m, SpecFloat.binary_round 53 1024 s m e =
                      BinarySingleNaN.binary_round 53 1024 mode_NE s m e) as H.
  { intros s m'. unfold SpecFloat.binary_round, BinarySingleNaN.binary_round, shl_align_fexp.
    destruct (shl_align _ _ _). apply binary_round_aux_equiv. }
  destruct m as [|p|p]; [reflexivity|simpl..]; rewrite B2SF_SF2B; apply H.
Qed.
Lemma f64_mul_equiv x y (Hx : valid_binary 53 1024 x = true) (Hy : valid_binary 53 1024 y = true) :
  f64_mul x y = B2SF (Bmult mode_NE (SF2B x Hx) (SF2B y Hy)).
Proof.
  destruct x as [sx|sx| |sx mx ex], y as [sy|sy| |sy my ey]; try reflexivity.
  simpl. rewrite B2SF_SF2B. apply binary_round_aux_equiv.
Qed.

Lemma f64_of_Z_nan z : f64_isnan (f64_of_Z z) = false.
Proof.
  unfold f64_of_Z. rewrite binary_normalize_equiv.
  pose proof (is_nan_binary_normalize 53 1024 Hprec Hmax mode_NE z 0 false) as H.
  now destruct (BinarySingleNaN.binary_normalize _ _ _ _ _ _ _ _).
Qed.

Lemma small_int_format z : (Z.abs z <= 2 ^ 53)%Z -> rnd64 (IZR z) = IZR z.
Proof.
  intros Hz. apply round_generic; [apply valid_rnd_N|].
  destruct (Z.eq_dec (Z.abs z) (2 ^ 53)) as [E|E].
  - assert (z = 2 ^ 53 \/ z = - 2 ^ 53)%Z as [->| ->] by lia.
    + change (IZR (2 ^ 53)) with (IZR (Zpower radix2 53)). rewrite IZR_Zpower by lia.
      apply generic_format_bpow. by vm_compute.
    + rewrite opp_IZR. apply generic_format_opp.
      change (IZR (2 ^ 53)) with (IZR (Zpower radix2 53)). rewrite IZR_Zpower by lia.
      apply generic_format_bpow. by vm_compute.
  - apply (generic_format_FLT radix2 (-1074) 53).
    exists (Float radix2 z 0); simpl.
    + unfold F2R; simpl. ring.
    + change (Z.pow_pos 2 53) with (2 ^ 53)%Z. lia.
    + lia.
Qed.

Lemma f64_of_Z_exact z : (Z.abs z <= 2 ^ 53)%Z ->
  f64_R (f64_of_Z z) = IZR z /\ is_finite_SF (f64_of_Z z) = true /\
  valid_binary 53 1024 (f64_of_Z z) = true.
Proof.
  intros Hz. unfold f64_of_Z. rewrite binary_normalize_equiv.
  pose proof (binary_normalize_correct 53 1024 Hprec Hmax mode_NE z 0 false) as H.
  cbv zeta in H. replace (F2R (Float radix2 z 0)) with (IZR z) in H
    by (unfold F2R; simpl; ring).
  change (round radix2 fexp64 (round_mode mode_NE) (IZR z)) with (rnd64 (IZR z)) in H.
  rewrite small_int_format in H by done.
  rewrite Rlt_bool_true in H.
  - destruct H as (H1 & H2 & _). unfold f64_R. rewrite SF2R_B2SF, is_finite_SF_B2SF.
    split; [done|split; [done|]]. apply valid_binary_B2SF.
  - rewrite <- abs_IZR. apply Rle_lt_trans with (IZR (2 ^ 53)); [by apply IZR_le|].
    change (IZR (2 ^ 53)) with (IZR (Zpower radix2 53)). rewrite IZR_Zpower by lia.
    now apply bpow_lt.
Qed.

Lemma f64_le_R x y : valid_binary 53 1024 x = true -> valid_binary 53 1024 y = true ->
  is_finite_SF x = true -> is_finite_SF y = true ->
  f64_le x y = Rle_bool (f64_R x) (f64_R y).
Proof.
  intros Vx Vy Fx Fy.
  pose proof (Bleb_correct 53 1024 (SF2B x Vx) (SF2B y Vy)) as H.
  rewrite !is_finite_SF2B, !B2R_SF2B in H. unfold Bleb in H. rewrite !B2SF_SF2B in H.
  by apply H.
Qed.
Lemma f64_lt_R x y : valid_binary 53 1024 x = true -> valid_binary 53 1024 y = true ->
  is_finite_SF x = true -> is_finite_SF y = true ->
  f64_lt x y = Rlt_bool (f64_R x) (f64_R y).
Proof.
  intros Vx Vy Fx Fy.
  pose proof (Bltb_correct 53 1024 (SF2B x Vx) (SF2B y Vy)) as H.
  rewrite !is_finite_SF2B, !B2R_SF2B in H. unfold Bltb in H. rewrite !B2SF_SF2B in H.
  by apply H.
Qed.

Lemma f64_le_of_Z a b : (Z.abs a <= 2 ^ 53)%Z -> (Z.abs b <= 2 ^ 53)%Z ->
  f64_le (f64_of_Z a) (f64_of_Z b) = true <-> (a <= b)%Z.
Proof.
  intros Ha Hb. destruct (f64_of_Z_exact a Ha) as (A1 & A2 & A3).
  destruct (f64_of_Z_exact b Hb) as (B1 & B2 & B3).
  rewrite f64_le_R, A1, B1 by done. split.
  - intros H. apply le_IZR. revert H. case Rle_bool_spec; done.
  - intros H. apply Rle_bool_true. by apply IZR_le.
Qed.

(** Truncation is the floor of the real value, for non-negative finite values. *)
Lemma f64_trunc_floor x : is_finite_SF x = true -> (0 <= f64_R x)%R -> (f64_R x < IZR (2 ^ 63))%R ->
  f64_trunc x = Zfloor (f64_R x).
Proof.
  destruct x as [s|s| |s m e]; try discriminate; intros _ H0 H1.
  - simpl. symmetry. apply (Zfloor_IZR 0).
  - destruct s.
    { exfalso. unfold f64_R, SF2R in H0. simpl in H0.
      assert (F2R (Float radix2 (Z.neg m) e) < 0)%R by (now apply F2R_lt_0). apply (Rlt_irrefl 0). by eapply Rle_lt_trans. }
    unfold f64_R, SF2R in *. cbn [cond_Zopp] in *. unfold f64_trunc.
    assert (match e with
            | 0%Z => Z.pos m | Z.pos p => (Z.pos m * 2 ^ Z.pos p)%Z
            | Z.neg p => (Z.pos m / 2 ^ Z.pos p)%Z end
            = Zfloor (F2R (Float radix2 (Z.pos m) e))) as ->.
    { unfold F2R. cbn [Fnum Fexp]. destruct e as [|p|p].
      - simpl. rewrite Rmult_1_r. symmetry. apply Zfloor_IZR.
      - rewrite <- IZR_Zpower by lia. rewrite <- mult_IZR. symmetry. apply Zfloor_IZR.
      - change (Z.neg p) with (- Z.pos p)%Z. rewrite bpow_opp, <- IZR_Zpower by lia.
        change (IZR (Z.pos m) * / IZR (radix2 ^ Z.pos p))%R
          with (IZR (Z.pos m) / IZR (2 ^ Z.pos p))%R.
        rewrite Zfloor_div; [done|]. pose proof (Z.pow_pos_nonneg 2 (Z.pos p)). lia. }
    rewrite decide_True; [done|].
    assert (0 <= Zfloor (F2R (Float radix2 (Z.pos m) e)))%Z.
    { now apply Zfloor_lub. }
    split; [lia|]. apply lt_IZR. apply Rle_lt_trans with (2 := H1). apply Zfloor_lb.
Qed.

(** int(float64(n) * r) for a ratio r. *)
Lemma ratio_trunc n r : (0 <= n <= 2 ^ 53)%Z -> valid_binary 53 1024 r = true ->
  f64_isnan r = false -> f64_lt r f64_zero = false -> f64_lt f64_one r = false ->
  f64_trunc (f64_mul (f64_of_Z n) r) = Zfloor (rnd64 (IZR n * f64_R r)) /\
  (0 <= f64_trunc (f64_mul (f64_of_Z n) r) <= n)%Z /\ (0 <= f64_R r <= 1)%R.
Proof.
  intros Hn Vr Nr H0 H1.
  destruct (f64_of_Z_exact n) as (N1 & N2 & N3); [lia|].
  assert (is_finite_SF r = true) as Fr.
  { destruct r as [s|s| |s m e]; try done. destruct s; done. }
  assert (0 <= f64_R r <= 1)%R as Hr.
  { rewrite f64_lt_R in H0, H1 by (done || apply (f64_of_Z_exact 1); lia).
    split.
    - revert H0. case Rlt_bool_spec; [done|]. intros H _. exact H.
    - revert H1. case Rlt_bool_spec; [done|]. intros H _. unfold f64_one in H.
      rewrite (proj1 (f64_of_Z_exact 1 ltac:(lia))) in H. done. }
  assert (0 <= IZR n)%R as Hn0 by (apply IZR_le; lia).
  assert (0 <= IZR n * f64_R r <= IZR n)%R as Hp.
  { split; [apply Rmult_le_pos; lra|]. rewrite <- (Rmult_1_r (IZR n)) at 2.
    apply Rmult_le_compat_l; lra. }
  assert (Valid_exp fexp64) as VE by (apply (FLT_exp_valid (-1074) 53)).
  assert (0 <= rnd64 (IZR n * f64_R r) <= IZR n)%R as Hrd.
  { split.
    - unfold rnd64. rewrite <- (round_0 radix2 fexp64 ZnearestE).
      apply round_le; [done|apply valid_rnd_N|lra].
    - rewrite <- (small_int_format n) at 2 by lia.
      apply round_le; [done|apply valid_rnd_N|lra]. }
  assert (IZR n <= IZR (2 ^ 53))%R as Hnb by (apply IZR_le; lia).
  assert (IZR (2 ^ 53) < IZR (2 ^ 63))%R as Hbig by (now apply IZR_lt).
  rewrite (f64_mul_equiv _ _ N3 Vr).
  pose proof (Bmult_correct 53 1024 Hprec Hmax mode_NE (SF2B _ N3) (SF2B _ Vr)) as HB.
  rewrite !B2R_SF2B in HB. fold (f64_R r) in HB. fold (f64_R (f64_of_Z n)) in HB. rewrite N1 in HB.
  change (round radix2 fexp64 (round_mode mode_NE) (IZR n * f64_R r)) with (rnd64 (IZR n * f64_R r)) in HB.
  rewrite Rlt_bool_true in HB.
  2:{ rewrite Rabs_pos_eq by lra. apply Rle_lt_trans with (IZR (2 ^ 53)); [lra|].
      change (IZR (2 ^ 53)) with (IZR (Zpower radix2 53)). rewrite IZR_Zpower by lia.
      now apply bpow_lt. }
  destruct HB as (B1 & B2 & _). rewrite !is_finite_SF2B, N2, Fr in B2. simpl in B2.
  set (b := Bmult mode_NE (SF2B _ N3) (SF2B _ Vr)) in *.
  assert (f64_R (B2SF b) = rnd64 (IZR n * f64_R r)) as HR by (unfold f64_R; by rewrite SF2R_B2SF).
  rewrite f64_trunc_floor.
  - rewrite HR. split; [done|]. split; [|done]. split; [apply Zfloor_lub; lra|].
    apply le_IZR. apply Rle_trans with (rnd64 (IZR n * f64_R r)); [apply Zfloor_lb|lra].
  - by rewrite is_finite_SF_B2SF.
  - rewrite HR. lra.
  - rewrite HR. lra.
Qed.
