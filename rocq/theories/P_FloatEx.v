(** Exact sums, differences and quotients of float64. *)
From Coq Require Import Reals Psatz.
From Flocq Require Import Core BinarySingleNaN.
From Verif Require Import M_Frame P_Order P_Float.

Local Instance Hprec' : FLX.Prec_gt_0 53 := eq_refl.
Local Instance Hmax' : Prec_lt_emax 53 1024 := eq_refl.

Definition fin64 (x : f64) : Prop := valid_binary 53 1024 x = true /\ is_finite_SF x = true.
(** [r] is a float64. *)
Definition fmt (r : R) : Prop := rnd64 r = r /\ (Rabs r < bpow radix2 1024)%R.

Lemma f64_add_equiv x y (Hx : valid_binary 53 1024 x = true) (Hy : valid_binary 53 1024 y = true) :
  f64_add x y = B2SF (Bplus mode_NE (SF2B x Hx) (SF2B y Hy)).
Proof.
  destruct x as [sx|sx| |sx mx ex], y as [sy|sy| |sy my ey]; try reflexivity; try (simpl; by case Bool.eqb).
  simpl. apply binary_normalize_equiv.
Qed.
Lemma f64_sub_equiv x y (Hx : valid_binary 53 1024 x = true) (Hy : valid_binary 53 1024 y = true) :
  f64_sub x y = B2SF (Bminus mode_NE (SF2B x Hx) (SF2B y Hy)).
Proof.
  destruct x as [sx|sx| |sx mx ex], y as [sy|sy| |sy my ey]; try reflexivity; try (simpl; by case Bool.eqb).
  simpl. unfold Zminus. rewrite <- cond_Zopp_negb. apply binary_normalize_equiv.
Qed.
Lemma f64_div_equiv x y (Hx : valid_binary 53 1024 x = true) (Hy : valid_binary 53 1024 y = true) :
  f64_div x y = B2SF (Bdiv mode_NE (SF2B x Hx) (SF2B y Hy)).
Proof.
  destruct x as [sx|sx| |sx mx ex], y as [sy|sy| |sy my ey]; try reflexivity.
  unfold f64_div, SFdiv. cbn [SF2B Bdiv]. rewrite B2SF_SF2B.
  destruct (SFdiv_core_binary _ _ _ _ _ _) as [[mz ez] lz]. apply binary_round_aux_equiv.
Qed.
Lemma f64_sqrt_equiv x (Hx : valid_binary 53 1024 x = true) : SFsqrt 53 1024 x = B2SF (Bsqrt mode_NE (SF2B x Hx)).
Proof.
  destruct x as [sx|[]| |[] mx ex]; try reflexivity.
  unfold SFsqrt. cbn [SF2B Bsqrt]. rewrite B2SF_SF2B.
  destruct (SFsqrt_core_binary _ _ _ _) as [[mz ez] lz]. apply binary_round_aux_equiv.
Qed.

Lemma fin_of (b : binary_float 53 1024) r : B2R b = r -> is_finite b = true -> fin64 (B2SF b) /\ f64_R (B2SF b) = r.
Proof. intros H1 H2. unfold fin64, f64_R. rewrite SF2R_B2SF, is_finite_SF_B2SF. split; [split; [apply valid_binary_B2SF|done]|done]. Qed.
Lemma add_exact x y : fin64 x -> fin64 y -> fmt (f64_R x + f64_R y) -> fin64 (f64_add x y) /\ f64_R (f64_add x y) = (f64_R x + f64_R y)%R.
Proof.
  intros [Vx Fx] [Vy Fy] [Hr Ho]. rewrite (f64_add_equiv x y Vx Vy).
  pose proof (Bplus_correct 53 1024 _ _ mode_NE (SF2B x Vx) (SF2B y Vy)) as H. rewrite !is_finite_SF2B, !B2R_SF2B in H. specialize (H Fx Fy).
  change (round radix2 fexp64 (round_mode mode_NE) (SF2R radix2 x + SF2R radix2 y)) with (rnd64 (f64_R x + f64_R y)) in H.
  rewrite Hr, Rlt_bool_true in H by done. destruct H as (H1 & H2 & _). by apply fin_of.
Qed.
Lemma sub_exact x y : fin64 x -> fin64 y -> fmt (f64_R x - f64_R y) -> fin64 (f64_sub x y) /\ f64_R (f64_sub x y) = (f64_R x - f64_R y)%R.
Proof.
  intros [Vx Fx] [Vy Fy] [Hr Ho]. rewrite (f64_sub_equiv x y Vx Vy).
  pose proof (Bminus_correct 53 1024 _ _ mode_NE (SF2B x Vx) (SF2B y Vy)) as H. rewrite !is_finite_SF2B, !B2R_SF2B in H. specialize (H Fx Fy).
  change (round radix2 fexp64 (round_mode mode_NE) (SF2R radix2 x - SF2R radix2 y)) with (rnd64 (f64_R x - f64_R y)) in H.
  rewrite Hr, Rlt_bool_true in H by done. destruct H as (H1 & H2 & _). by apply fin_of.
Qed.
Lemma div_exact x y : fin64 x -> fin64 y -> f64_R y <> 0%R -> fmt (f64_R x / f64_R y) ->
  fin64 (f64_div x y) /\ f64_R (f64_div x y) = (f64_R x / f64_R y)%R.
Proof.
  intros [Vx Fx] [Vy Fy] Hz [Hr Ho]. rewrite (f64_div_equiv x y Vx Vy).
  pose proof (Bdiv_correct 53 1024 _ _ mode_NE (SF2B x Vx) (SF2B y Vy)) as H. rewrite !is_finite_SF2B, !B2R_SF2B in H. specialize (H Hz).
  change (round radix2 fexp64 (round_mode mode_NE) (SF2R radix2 x / SF2R radix2 y)) with (rnd64 (f64_R x / f64_R y)) in H.
  rewrite Hr, Rlt_bool_true in H by done. destruct H as (H1 & H2 & _). apply fin_of; [done|]. by rewrite H2.
Qed.
Lemma sqrt_fin x : fin64 x -> (0 < f64_R x)%R -> fin64 (SFsqrt 53 1024 x).
Proof.
  intros [Vx Fx] Hp. rewrite (f64_sqrt_equiv x Vx). pose proof (Bsqrt_correct 53 1024 _ _ mode_NE (SF2B x Vx)) as (H1 & H2 & _).
  apply (fin_of _ _ eq_refl). rewrite H2. destruct x as [s|s| |s m e]; try done. destruct s; [|done].
  exfalso. unfold f64_R in Hp. cbn in Hp. apply (Rlt_irrefl 0), (Rlt_trans _ _ _ Hp). apply F2R_lt_0. done.
Qed.
Lemma R_zero x : fin64 x -> f64_R x = 0%R -> exists s, x = S754_zero s.
Proof.
  intros [V F] H. destruct x as [s|s| |s m e]; try done; [by exists s|]. exfalso. unfold f64_R in H. cbn in H.
  apply eq_0_F2R in H. by destruct s.
Qed.
Lemma opp_exact x : fin64 x -> fin64 (SFopp x) /\ f64_R (SFopp x) = (- f64_R x)%R.
Proof.
  intros [V F]. destruct x as [s|s| |s m e]; try done; unfold fin64, f64_R; cbn; [split; [done|by rewrite Ropp_0]|].
  split; [done|]. rewrite <- F2R_Zopp. by destruct s.
Qed.

(** The multiples of a power of two up to 53 digits. *)
Lemma fmt_mult z e : (Z.abs z <= 2 ^ 53)%Z -> (-1074 <= e <= 970)%Z -> fmt (IZR z * bpow radix2 e).
Proof.
  intros Hz He. split.
  - apply round_generic; [apply valid_rnd_N|]. destruct (Z.eq_dec (Z.abs z) (2 ^ 53)) as [E|E].
    + assert (generic_format radix2 fexp64 (IZR (2 ^ 53) * bpow radix2 e)) as G.
      { change (IZR (2 ^ 53)) with (IZR (Zpower radix2 53)). rewrite IZR_Zpower, <- bpow_plus by lia.
        apply generic_format_bpow. unfold SpecFloat.fexp, SpecFloat.emin. lia. }
      assert (z = 2 ^ 53 \/ z = - 2 ^ 53)%Z as [->| ->] by lia; [done|].
      rewrite opp_IZR, Ropp_mult_distr_l_reverse. by apply generic_format_opp.
    + apply (generic_format_FLT radix2 (-1074) 53). exists (Float radix2 z e); simpl; [done| |lia].
      change (Z.pow_pos 2 53) with (2 ^ 53)%Z. lia.
  - rewrite Rabs_mult, (Rabs_pos_eq (bpow radix2 e)) by apply bpow_ge_0. rewrite <- abs_IZR.
    apply Rle_lt_trans with (IZR (2 ^ 53) * bpow radix2 e)%R.
    + apply Rmult_le_compat_r; [apply bpow_ge_0|by apply IZR_le].
    + change (IZR (2 ^ 53)) with (IZR (Zpower radix2 53)). rewrite IZR_Zpower, <- bpow_plus by lia. apply bpow_lt. lia.
Qed.
Lemma fmt_0 : fmt 0.
Proof. split; [apply round_0, valid_rnd_N|]. rewrite Rabs_R0. apply bpow_gt_0. Qed.
