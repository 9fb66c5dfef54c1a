(** Correct rounding: [nearest], [scaled] and the digits of FormatFloat. *)
From Coq Require Import Reals Psatz.
From Flocq Require Import Core BinarySingleNaN.
From Verif Require Import M_Strconv.
From Verif Require Import P_Float P_FloatEx Spec_Json Spec_Strconv.
Local Open Scope R_scope.

Local Instance sc_prec : FLX.Prec_gt_0 53 := eq_refl.
Local Instance sc_max : Prec_lt_emax 53 1024 := eq_refl.

Lemma rnd64_even r : rnd64 r = round_even r.
Proof. reflexivity. Qed.

Definition sgn (s : bool) : R := if s then -1 else 1.
Lemma cond_sgn s p : IZR (cond_Zopp s (Zpos p)) = sgn s * IZR (Zpos p).
Proof. destruct s; unfold cond_Zopp, sgn; [rewrite opp_IZR|]; ring. Qed.
Lemma sgn_abs s r : Rabs (sgn s * r) = Rabs r.
Proof. destruct s; unfold sgn; [replace (-1 * r) with (- r) by ring; apply Rabs_Ropp|f_equal; ring]. Qed.

Lemma nearest_spec s p q (r := sgn s * (IZR (Zpos p) / IZR (Zpos q))) :
  is_f64 (nearest s p q) /\
  (Rabs (rnd64 r) < bpow radix2 1024 ->
    f64_R (nearest s p q) = rnd64 r /\ is_finite_SF (nearest s p q) = true /\ sign_SF (nearest s p q) = s) /\
  (bpow radix2 1024 <= Rabs (rnd64 r) -> nearest s p q = S754_infinity s).
Proof.
  pose proof (Bdiv_correct_aux 53 1024 _ _ mode_NE s p 0 false q 0) as H. cbv zeta in H.
  assert (EF : F2R (Float radix2 (cond_Zopp s (Z.pos p)) 0) / F2R (Float radix2 (cond_Zopp false (Z.pos q)) 0) = r).
  { unfold F2R, r. cbn [Fnum Fexp bpow]. rewrite !cond_sgn. unfold sgn at 2. field. apply not_0_IZR. lia. }
  rewrite EF in H.
  assert (EN : nearest s p q = (let '(mz, ez, lz) := SFdiv_core_binary 53 1024 (Z.pos p) 0 (Z.pos q) 0 in
     BinarySingleNaN.binary_round_aux 53 1024 mode_NE (xorb s false) mz ez lz)).
  { unfold nearest, SFdiv. destruct (SFdiv_core_binary _ _ _ _ _ _) as [[mz ez] lz]. apply binary_round_aux_equiv. }
  rewrite <- EN in H. rewrite xorb_false_r in H.
  change (round radix2 (SpecFloat.fexp 53 1024) (round_mode mode_NE) r) with (rnd64 r) in H.
  destruct H as [H1 H2]. split; [exact H1|]. split.
  - intros Hr. rewrite Rlt_bool_true in H2 by done. exact H2.
  - intros Hr. rewrite Rlt_bool_false in H2 by done. by rewrite H2.
Qed.

(** Equal numbers are equal float64, given the sign. *)
Lemma f64_unique x y : is_f64 x -> is_f64 y -> is_finite_SF x = true -> is_finite_SF y = true ->
  f64_R x = f64_R y -> sign_SF x = sign_SF y -> x = y.
Proof.
  intros Vx Vy Fx Fy ER ES.
  assert (E : SF2B x Vx = SF2B y Vy).
  { apply B2R_Bsign_inj; rewrite ?is_finite_SF2B, ?B2R_SF2B; try done. by rewrite !Bsign_SF2B. }
  apply (f_equal B2SF) in E. by rewrite !B2SF_SF2B in E.
Qed.
Lemma f64_format x : is_f64 x -> is_finite_SF x = true -> rnd64 (f64_R x) = f64_R x /\ Rabs (f64_R x) < bpow radix2 1024.
Proof.
  intros Vx Fx. split.
  - unfold rnd64. apply round_generic; [apply valid_rnd_N|]. unfold f64_R. rewrite <- (B2R_SF2B 53 1024 x Vx).
    apply generic_format_B2R.
  - unfold f64_R. rewrite <- (B2R_SF2B 53 1024 x Vx). apply abs_B2R_lt_emax.
Qed.

(** ** scaled *)
Definition dec (D k : Z) : R := IZR D * powerRZ 10 k.
Lemma pow_pos_IZR b k : IZR (Zpos (b ^ k)) = powerRZ (IZR (Zpos b)) (Zpos k).
Proof.
  rewrite Pos2Z.inj_pow. cbn [powerRZ]. rewrite pow_IZR, positive_nat_Z. done.
Qed.
Lemma powerRZ_10_pos k : 0 < powerRZ 10 k.
Proof. apply powerRZ_lt. lra. Qed.
(** [scaled 10 s D k] is the float64 nearest to [(-1)^s * D * 10^k]. *)
Lemma scaled_spec b s D k (r := sgn s * (IZR D * powerRZ (IZR (Zpos b)) k)) : (0 < D)%Z ->
  is_f64 (scaled b s D k) /\
  (Rabs (rnd64 r) < bpow radix2 1024 ->
    f64_R (scaled b s D k) = rnd64 r /\ is_finite_SF (scaled b s D k) = true /\ sign_SF (scaled b s D k) = s) /\
  (bpow radix2 1024 <= Rabs (rnd64 r) -> scaled b s D k = S754_infinity s).
Proof.
  intros HD. destruct D as [|p|p]; [lia| |lia]. destruct k as [|k|k]; cbn [scaled].
  - pose proof (nearest_spec s p 1) as H. cbv zeta in H.
    replace (sgn s * (IZR (Z.pos p) / 1)) with r in H by (unfold r; cbn [powerRZ]; field). exact H.
  - pose proof (nearest_spec s (p * b ^ k) 1) as H. cbv zeta in H.
    replace (sgn s * (IZR (Z.pos (p * b ^ k)) / 1)) with r in H; [exact H|].
    unfold r. rewrite Pos2Z.inj_mul, mult_IZR, pow_pos_IZR. field.
  - pose proof (nearest_spec s p (b ^ k)) as H. cbv zeta in H.
    replace (sgn s * (IZR (Z.pos p) / IZR (Z.pos (b ^ k)))) with r in H; [exact H|].
    unfold r. rewrite pow_pos_IZR. reflexivity.
Qed.
Lemma is_f64_finite x : finite x <-> is_finite_SF x = true.
Proof. split; [intros [H1 H2]; destruct x; try done; by destruct (H2 s)|]. intros H. by destruct x. Qed.
Lemma f64_R_finite s m e : f64_R (S754_finite s m e) = sgn s * (IZR (Zpos m) * bpow radix2 e).
Proof. unfold f64_R, SF2R, F2R. cbn [Fnum Fexp]. rewrite cond_sgn. ring. Qed.
(** [x] is found from any decimal that is exactly [x]. *)
Lemma scaled_exact b s m e D k : is_f64 (S754_finite s m e) -> (0 < D)%Z ->
  IZR D * powerRZ (IZR (Zpos b)) k = IZR (Zpos m) * bpow radix2 e -> scaled b s D k = S754_finite s m e.
Proof.
  intros Hx HD E. destruct (scaled_spec b s D k HD) as (V & F & _). rewrite E, <- f64_R_finite in F.
  destruct (f64_format (S754_finite s m e) Hx eq_refl) as [G1 G2]. rewrite G1 in F.
  destruct (F G2) as (F1 & F2 & F3). by apply f64_unique.
Qed.
Lemma scaled_finite_spec b s D k m e : is_f64 (S754_finite s m e) -> (0 < D)%Z ->
  scaled b s D k = S754_finite s m e <-> rnd64 (sgn s * (IZR D * powerRZ (IZR (Zpos b)) k)) = f64_R (S754_finite s m e).
Proof.
  intros Hx HD. destruct (scaled_spec b s D k HD) as (V & F & G). set (r := sgn s * _) in *.
  destruct (f64_format (S754_finite s m e) Hx eq_refl) as [G1 G2]. split.
  - intros E. destruct (Rlt_le_dec (Rabs (rnd64 r)) (bpow radix2 1024)) as [H|H].
    + destruct (F H) as (F1 & _). by rewrite <- F1, E.
    + by rewrite (G H) in E.
  - intros E. rewrite E in F. destruct (F G2) as (F1 & F2 & F3). by apply f64_unique.
Qed.

(** ** Digits *)
Lemma expansion_exact m e (p := expansion m e) : (0 < p.1)%Z /\ IZR p.1 * powerRZ 10 p.2 = IZR (Zpos m) * bpow radix2 e.
Proof.
  assert (E10 : forall k, IZR (10 ^ Zpos k) = powerRZ 10 (Zpos k)).
  { intros k. rewrite <- Pos2Z.inj_pow. apply pow_pos_IZR. }
  destruct e as [|k|k]; cbn [expansion fst snd p].
  - split; [lia|]. change (2 ^ 0)%Z with 1%Z. rewrite Z.mul_1_r. done.
  - split; [pose proof (Z.pow_pos_nonneg 2 (Zpos k)); lia|]. cbn [powerRZ]. rewrite mult_IZR, Rmult_1_r. reflexivity.
  - split; [pose proof (Z.pow_pos_nonneg 5 (Zpos k)); lia|]. rewrite mult_IZR, Rmult_assoc. f_equal.
    assert (E5 : IZR (5 ^ Zpos k) * IZR (2 ^ Zpos k) = IZR (10 ^ Zpos k)) by (rewrite <- mult_IZR, <- Z.pow_mul_l; done).
    change (powerRZ 10 (Z.neg k)) with (/ powerRZ 10 (Z.pos k)). rewrite <- E10.
    change (bpow radix2 (Z.neg k)) with (/ IZR (Zpower radix2 (Zpos k))). change (Zpower radix2 (Zpos k)) with (2 ^ Zpos k)%Z.
    assert (H2 : IZR (2 ^ Zpos k) <> 0) by (apply not_0_IZR; pose proof (Z.pow_pos_nonneg 2 (Zpos k)); lia).
    assert (H10 : IZR (10 ^ Zpos k) <> 0) by (apply not_0_IZR; pose proof (Z.pow_pos_nonneg 10 (Zpos k)); lia).
    rewrite <- E5 in *. field. split; [done|]. intros E. apply H10. rewrite E. ring.
Qed.
Lemma shortest_from_ok s m e N K j : is_f64 (S754_finite s m e) -> (0 < N)%Z ->
  IZR N * powerRZ 10 K = IZR (Zpos m) * bpow radix2 e ->
  let p := shortest_from s (S754_finite s m e) N K j in scaled 10 s p.1 p.2 = S754_finite s m e.
Proof.
  intros Hx HN E. induction j as [|j IH]; cbn [shortest_from].
  - by apply scaled_exact.
  - set (d := (N / _)%Z). set (k := (K + _)%Z).
    destruct (bool_decide (scaled 10 s d k = _)) eqn:E1, (bool_decide (scaled 10 s (d + 1) k = _)) eqn:E2;
      try apply bool_decide_eq_true in E1; try apply bool_decide_eq_true in E2; [destruct (decide _); [exact E2|exact E1]|exact E1|exact E2|exact IH].
Qed.
Lemma scaled_pos s m e D k : scaled 10 s D k = S754_finite s m e -> (0 < D)%Z.
Proof. by destruct D. Qed.
Lemma trim_dec fuel p : dec (trim fuel p).1 (trim fuel p).2 = dec p.1 p.2 /\ ((0 < p.1)%Z -> (0 < (trim fuel p).1)%Z).
Proof.
  revert p. induction fuel as [|fuel IH]; intros [D k]; [done|]. cbn [trim fst snd]. destruct (decide _) as [H|H]; [|done].
  pose proof (Z.div_mod D 10 ltac:(lia)) as HD. rewrite H in HD.
  destruct (IH (D / 10, k + 1)%Z) as [I1 I2]. cbn [fst snd] in *. rewrite I1. split; [|intros; apply I2; lia].
  unfold dec. rewrite powerRZ_add, powerRZ_1 by lra.
  assert (ED : IZR D = 10 * IZR (D / 10)) by (rewrite <- mult_IZR; f_equal; lia). rewrite ED. ring.
Qed.
Lemma scaled_dec s D k D' k' : (0 < D)%Z -> (0 < D')%Z -> dec D k = dec D' k' -> scaled 10 s D k = scaled 10 s D' k'.
Proof.
  intros H H' E. destruct (scaled_spec 10 s D k H) as (V & F & G). destruct (scaled_spec 10 s D' k' H') as (V' & F' & G').
  change (IZR D * powerRZ 10 k) with (dec D k) in *. change (IZR D' * powerRZ 10 k') with (dec D' k') in *. rewrite E in *.
  destruct (Rlt_le_dec (Rabs (rnd64 (sgn s * dec D' k'))) (bpow radix2 1024)) as [L|L].
  - destruct (F L) as (F1 & F2 & F3). destruct (F' L) as (F1' & F2' & F3'). apply f64_unique; congruence.
  - by rewrite (G L), (G' L).
Qed.
Lemma shortest_ok s m e : is_f64 (S754_finite s m e) ->
  scaled 10 s (shortest s m e).1 (shortest s m e).2 = S754_finite s m e /\ (0 < (shortest s m e).1)%Z.
Proof.
  intros Hx. unfold shortest. pose proof (expansion_exact m e) as HE. destruct (expansion m e) as [N K]. destruct HE as [HN HE]. cbn [fst snd] in *.
  pose proof (shortest_from_ok s m e N K (ndigits N - 1) Hx HN HE) as H. destruct (shortest_from _ _ _ _ _) as [D k]. cbn [fst snd] in H.
  destruct (trim_dec (ndigits D - 1) (D, k)) as [T1 T2]. cbn [fst snd] in *. pose proof (scaled_pos _ _ _ _ _ H) as HD.
  split; [|by apply T2]. rewrite <- H. apply scaled_dec; [by apply T2|done|done].
Qed.
