(** The digits of FormatFloat: as few as possible, and then as close as
    possible. *)
From Coq Require Import Reals Psatz.
From Flocq Require Import Core BinarySingleNaN.
From Verif Require Import M_Strconv.
From stdpp Require Import strings pretty list.
From Verif Require Import P_Float P_FloatEx Spec_Json Spec_Strconv P_Csv4 P_Strconv P_Strconv2 P_Strconv3 P_Strconv4.
Local Open Scope Z_scope.

Lemma dec_le k n D D' : 0 <= n -> (dec D (k + n) <= dec D' k)%R <-> D * 10 ^ n <= D'.
Proof.
  intros Hn. rewrite <- dec_shift by done. unfold dec. pose proof (powerRZ_10_pos k). split.
  - intros E. apply le_IZR. eapply Rmult_le_reg_r; eauto.
  - intros E. apply IZR_le in E. apply Rmult_le_compat_r; lra.
Qed.
Lemma dec_ge k n D D' : 0 <= n -> (dec D' k <= dec D (k + n))%R <-> D' <= D * 10 ^ n.
Proof.
  intros Hn. rewrite <- dec_shift by done. unfold dec. pose proof (powerRZ_10_pos k). split.
  - intros E. apply le_IZR. eapply Rmult_le_reg_r; eauto.
  - intros E. apply IZR_le in E. apply Rmult_le_compat_r; lra.
Qed.

Section digits.
Context (N K : Z) (HN : 0 < N).
Lemma quot_low (j : nat) : (j < ndigits N)%nat -> 10 ^ (Z.of_nat (ndigits N - j) - 1) <= N / 10 ^ Z.of_nat j /\
  N / 10 ^ Z.of_nat j < 10 ^ Z.of_nat (ndigits N - j).
Proof.
  intros Hj. destruct (ndigits_spec N HN) as (H1 & H2 & H3). pose proof (Z.pow_pos_nonneg 10 (Z.of_nat j) ltac:(lia) ltac:(lia)). split.
  - apply Z.div_le_lower_bound; [lia|]. rewrite <- Z.pow_add_r by lia. replace (Z.of_nat j + _) with (Z.of_nat (ndigits N) - 1) by lia. done.
  - apply Z.div_lt_upper_bound; [lia|]. rewrite <- Z.pow_add_r by lia. replace (Z.of_nat j + _) with (Z.of_nat (ndigits N)) by lia. done.
Qed.
(** Cutting [N] after some digits gives the nearest numbers with so few
    digits. *)
Lemma small_exponent D' k' (j : nat) : 0 < D' -> (j < ndigits N)%nat -> (ndigits D' + j <= ndigits N)%nat ->
  k' < K + Z.of_nat j -> D' < N / 10 ^ Z.of_nat j * 10 ^ (K + Z.of_nat j - k').
Proof.
  intros HD' Hj Hn Hk. destruct (quot_low j Hj) as [Q1 _]. destruct (ndigits_spec D' HD') as (D1 & _ & D3).
  set (n := K + Z.of_nat j - k') in *. set (q := N / _) in *.
  assert (H10 : 10 ^ 1 <= 10 ^ n) by (apply Z.pow_le_mono_r; lia).
  assert (HP : 10 ^ Z.of_nat (ndigits D') <= 10 ^ Z.of_nat (ndigits N - j)) by (apply Z.pow_le_mono_r; lia).
  assert (HS : 10 ^ Z.of_nat (ndigits N - j) = 10 * 10 ^ (Z.of_nat (ndigits N - j) - 1)).
  { rewrite <- Z.pow_succ_r by lia. f_equal. lia. }
  assert (0 < 10 ^ (Z.of_nat (ndigits N - j) - 1)) by (apply Z.pow_pos_nonneg; lia). nia.
Qed.
Lemma cut_below D' k' (j : nat) : 0 < D' -> (j < ndigits N)%nat -> (ndigits D' + j <= ndigits N)%nat ->
  (dec D' k' <= dec N K)%R -> (dec D' k' <= dec (N / 10 ^ Z.of_nat j) (K + Z.of_nat j))%R.
Proof.
  intros HD' Hj Hn H. destruct (decide (K + Z.of_nat j <= k')) as [Hk|Hk].
  - replace k' with ((K + Z.of_nat j) + (k' - (K + Z.of_nat j))) by lia. apply dec_le; [lia|].
    replace k' with (K + (k' - K)) in H by lia. apply dec_le in H; [|lia].
    apply Z.div_le_lower_bound; [apply Z.pow_pos_nonneg; lia|].
    replace (k' - K) with (Z.of_nat j + (k' - (K + Z.of_nat j))) in H by lia. rewrite Z.pow_add_r in H by lia. lia.
  - pose proof (small_exponent D' k' j HD' Hj Hn ltac:(lia)) as HS.
    replace (K + Z.of_nat j) with (k' + (K + Z.of_nat j - k')) by lia. apply dec_ge; lia.
Qed.
Lemma cut_le (j : nat) : (dec (N / 10 ^ Z.of_nat j) (K + Z.of_nat j) <= dec N K)%R /\
  (dec N K < dec (N / 10 ^ Z.of_nat j + 1) (K + Z.of_nat j))%R.
Proof.
  pose proof (Z.pow_pos_nonneg 10 (Z.of_nat j) ltac:(lia) ltac:(lia)) as HT.
  pose proof (Z.div_mod N (10 ^ Z.of_nat j) ltac:(lia)). pose proof (Z.mod_pos_bound N (10 ^ Z.of_nat j) HT). split.
  - apply dec_le; lia.
  - apply Rnot_le_lt. rewrite dec_le by lia. lia.
Qed.
Lemma cut_above D' k' (j : nat) : 0 < D' -> (j < ndigits N)%nat -> (ndigits D' + j <= ndigits N)%nat ->
  (dec N K < dec D' k')%R -> (dec (N / 10 ^ Z.of_nat j + 1) (K + Z.of_nat j) <= dec D' k')%R.
Proof.
  intros HD' Hj Hn H. pose proof (Z.pow_pos_nonneg 10 (Z.of_nat j) ltac:(lia) ltac:(lia)) as HT.
  destruct (decide (K + Z.of_nat j <= k')) as [Hk|Hk].
  - replace k' with ((K + Z.of_nat j) + (k' - (K + Z.of_nat j))) by lia. apply dec_ge; [lia|].
    apply Rlt_not_le in H. replace k' with (K + (k' - K)) in H by lia. rewrite dec_le in H by lia.
    enough (N / 10 ^ Z.of_nat j < D' * 10 ^ (k' - (K + Z.of_nat j))) by lia.
    apply Z.div_lt_upper_bound; [done|].
    replace (k' - K) with (Z.of_nat j + (k' - (K + Z.of_nat j))) in H by lia. rewrite Z.pow_add_r in H by lia. lia.
  - exfalso. pose proof (small_exponent D' k' j HD' Hj Hn ltac:(lia)) as HS. destruct (cut_le j) as [HC _].
    assert (dec D' k' <= dec (N / 10 ^ Z.of_nat j) (K + Z.of_nat j))%R; [|lra].
    replace (K + Z.of_nat j) with (k' + (K + Z.of_nat j - k')) by lia. apply dec_ge; lia.
Qed.
End digits.

(** Numbers between two that are rounded to [x]. *)
Lemma scaled_convex s m e D1 k1 D k D2 k2 : is_f64 (S754_finite s m e) -> 0 < D1 -> 0 < D -> 0 < D2 ->
  (dec D1 k1 <= dec D k <= dec D2 k2)%R ->
  scaled 10 s D1 k1 = S754_finite s m e -> scaled 10 s D2 k2 = S754_finite s m e -> scaled 10 s D k = S754_finite s m e.
Proof.
  intros Hx H1 H H2 [L1 L2] E1 E2. apply scaled_finite_spec in E1; [|done..]. apply scaled_finite_spec in E2; [|done..].
  apply scaled_finite_spec; [done..|]. fold (dec D1 k1) in E1. fold (dec D2 k2) in E2. fold (dec D k).
  change (IZR D1 * powerRZ 10 k1)%R with (dec D1 k1) in E1. change (IZR D2 * powerRZ 10 k2)%R with (dec D2 k2) in E2.
  change (IZR D * powerRZ 10 k)%R with (dec D k).
  assert (HM : forall a b, (a <= b)%R -> (rnd64 a <= rnd64 b)%R).
  { intros a b Hab. apply round_le; [apply FLT_exp_valid; done|apply valid_rnd_N|done]. }
  destruct s; unfold sgn in *; apply Rle_antisym; (rewrite <- E1 at 1 || rewrite <- E1); try (apply HM; lra); rewrite E1, <- E2; apply HM; lra.
Qed.

Section minimal.
Context (s : bool) (m : positive) (e : Z) (Hx : is_f64 (S754_finite s m e)).
Notation x := (S754_finite s m e).
Context (N K : Z) (HN : 0 < N) (HE : dec N K = (IZR (Zpos m) * bpow radix2 e)%R).
Notation q j := (N / 10 ^ Z.of_nat j).
Notation up j := (K + Z.of_nat j).
Lemma scaled_NK : scaled 10 s N K = x.
Proof. by apply scaled_exact. Qed.
Lemma shortest_from_cases J : exists j : nat, (j <= J)%nat /\
  (forall i : nat, (j < i <= J)%nat -> scaled 10 s (q i) (up i) <> x /\ scaled 10 s (q i + 1) (up i) <> x) /\
  (shortest_from s x N K J).2 = up j /\
  (((shortest_from s x N K J).1 = q j /\ scaled 10 s (q j) (up j) = x /\
     (scaled 10 s (q j + 1) (up j) = x -> 2 * (N mod 10 ^ Z.of_nat j) <= 10 ^ Z.of_nat j)) \/
   ((shortest_from s x N K J).1 = q j + 1 /\ scaled 10 s (q j + 1) (up j) = x /\
     (scaled 10 s (q j) (up j) = x -> 10 ^ Z.of_nat j <= 2 * (N mod 10 ^ Z.of_nat j)))).
Proof.
  induction J as [|J IH].
  - exists 0%nat. split; [done|]. split; [lia|]. cbn [shortest_from fst snd]. change (Z.of_nat 0) with 0. rewrite Z.pow_0_r, Z.div_1_r, Z.mod_1_r, Z.add_0_r.
    split; [done|]. left. split; [done|]. split; [apply scaled_NK|lia].
  - cbn [shortest_from]. set (t := 10 ^ Z.of_nat (S J)).
    destruct (bool_decide (scaled 10 s (N / t) (up (S J)) = x)) eqn:E1;
      destruct (bool_decide (scaled 10 s (N / t + 1) (up (S J)) = x)) eqn:E2;
      (try apply bool_decide_eq_true in E1); (try apply bool_decide_eq_true in E2);
      (try apply bool_decide_eq_false in E1); (try apply bool_decide_eq_false in E2).
    1-3: exists (S J); split; [done|]; split; [lia|].
    + destruct (decide _) as [H|H]; cbn [fst snd]; (split; [done|]).
      * right. split; [done|]. split; [done|]. intros _. fold t. lia.
      * left. split; [done|]. split; [done|]. intros _. fold t. lia.
    + cbn [fst snd]. split; [done|]. left. split; [done|]. split; [done|]. intros H. by destruct E2.
    + cbn [fst snd]. split; [done|]. right. split; [done|]. split; [done|]. intros H. by destruct E1.
    + destruct IH as (j & Hj & Hi & H). exists j. split; [lia|]. split; [|exact H].
      intros i Hi'. destruct (decide (i = S J)) as [->|]; [done|]. apply Hi. lia.
Qed.
End minimal.
Lemma trimmed_least D k D' k' : 0 < D -> D mod 10 <> 0 -> 0 < D' -> dec D k = dec D' k' -> D <= D'.
Proof.
  intros HD HM HD' E. destruct (decide (k' <= k)) as [H|H].
  - assert (dec D k <= dec D' k')%R as L by lra. replace k with (k' + (k - k')) in L by lia. apply dec_le in L; [|lia].
    pose proof (Z.pow_pos_nonneg 10 (k - k') ltac:(lia) ltac:(lia)). nia.
  - exfalso. assert (D = D' * 10 ^ (k' - k)) as ->.
    { replace k' with (k + (k' - k)) in E by lia. apply Z.le_antisymm; [apply (dec_ge k)|apply (dec_le k)]; lia || lra. }
    apply HM. replace (k' - k) with (Z.succ (k' - k - 1)) by lia. rewrite Z.pow_succ_r, (Z.mul_comm 10), Z.mul_assoc by lia. by apply Z.mod_mul.
Qed.
Lemma shortest_minimal s m e (p := shortest s m e) : is_f64 (S754_finite s m e) ->
  forall D' k', 0 < D' -> scaled 10 s D' k' = S754_finite s m e ->
  (ndigits p.1 <= ndigits D')%nat /\
  ((ndigits D' <= ndigits p.1)%nat ->
   (Rabs (dec p.1 p.2 - IZR (Zpos m) * bpow radix2 e) <= Rabs (dec D' k' - IZR (Zpos m) * bpow radix2 e))%R).
Proof.
  intros Hx D' k' HD' HI. pose proof (shortest_end s m e Hx) as HM. destruct (shortest_ok s m e Hx) as [_ HP]. fold p in HM, HP.
  pose proof (expansion_exact m e) as [HN HE]. unfold shortest in p. destruct (expansion m e) as [N K]. cbn [fst snd] in *.
  pose proof (shortest_from_ok s m e N K (ndigits N - 1) Hx HN HE) as HS.
  destruct (ndigits_spec N HN) as [Hn1 _].
  destruct (shortest_from_cases s m e Hx N K HN HE (ndigits N - 1)) as (j & Hj & Hfail & Hk & Hc).
  destruct (shortest_from s (S754_finite s m e) N K (ndigits N - 1)) as [D k]. cbn [fst snd] in *. subst k.
  pose proof (scaled_pos _ _ _ _ _ HS) as HD.
  destruct (trim_dec (ndigits D - 1) (D, K + Z.of_nat j)) as [T1 _]. fold p in T1. cbn [fst snd] in T1.
  destruct (quot_low N HN j ltac:(lia)) as [Q1 Q2]. set (q := N / 10 ^ Z.of_nat j) in *.
  assert (HQ : 0 < q) by (assert (0 < 10 ^ (Z.of_nat (ndigits N - j) - 1)) by (apply Z.pow_pos_nonneg; lia); lia).
  assert (HL : (ndigits p.1 <= ndigits N - j)%nat).
  { destruct (decide (D < 10 ^ Z.of_nat (ndigits N - j))) as [H|H].
    - pose proof (ndigits_mono p.1 D HP (trimmed_least _ _ _ _ HP HM HD T1)). pose proof (ndigits_le D _ HD H). lia.
    - assert (ED : D = 10 ^ Z.of_nat (ndigits N - j)) by (destruct Hc as [[-> _]|[-> _]]; lia).
      assert (p.1 <= 1).
      { apply (trimmed_least _ p.2 1 (K + Z.of_nat j + Z.of_nat (ndigits N - j))); [done..|]. rewrite T1, ED, <- (dec_shift 1) by lia.
        by rewrite Z.mul_1_l. }
      etrans; [apply (ndigits_mono _ 1 HP); lia|]. change (ndigits 1) with 1%nat. lia. }
  split.
  - destruct (Nat.le_gt_cases (ndigits p.1) (ndigits D')) as [H|H]; [done|exfalso].
    destruct (ndigits_spec D' HD') as [HD1 _].
    destruct (Hfail (ndigits N - ndigits D')%nat ltac:(lia)) as [F1 F2].
    set (i := (ndigits N - ndigits D')%nat) in *. destruct (quot_low N HN i ltac:(lia)) as [Q1' _].
    assert (HQ' : 0 < N / 10 ^ Z.of_nat i) by (assert (0 < 10 ^ (Z.of_nat (ndigits N - i) - 1)) by (apply Z.pow_pos_nonneg; lia); lia).
    destruct (cut_le N K i) as [C1 C2]. destruct (Rle_or_lt (dec D' k') (dec N K)) as [L|L].
    + pose proof (cut_below N K HN D' k' i HD' ltac:(lia) ltac:(lia) L). apply F1.
      by apply (scaled_convex s m e D' k' _ _ N K); [..|apply scaled_NK].
    + pose proof (cut_above N K HN D' k' i HD' ltac:(lia) ltac:(lia) L). apply F2.
      apply (scaled_convex s m e N K _ _ D' k'); [done|done|lia|done|lra|by apply scaled_NK|done].
  - intros Hn. rewrite T1, <- HE. fold (dec N K). change (IZR N * powerRZ 10 K)%R with (dec N K).
    destruct (cut_le N K j) as [C1 C2]. fold q in C1, C2.
    assert (EN : (dec N K = dec q (K + Z.of_nat j) + IZR (N mod 10 ^ Z.of_nat j) * powerRZ 10 K)%R).
    { rewrite <- dec_shift by lia. unfold dec. rewrite <- Rmult_plus_distr_r, <- plus_IZR. do 2 f_equal. unfold q.
      pose proof (Z.pow_pos_nonneg 10 (Z.of_nat j) ltac:(lia) ltac:(lia)). pose proof (Z.div_mod N (10 ^ Z.of_nat j)). lia. }
    assert (EU : (dec (q + 1) (K + Z.of_nat j) = dec q (K + Z.of_nat j) + IZR (10 ^ Z.of_nat j) * powerRZ 10 K)%R).
    { rewrite <- !dec_shift by lia. unfold dec. rewrite <- Rmult_plus_distr_r, <- plus_IZR. do 2 f_equal. lia. }
    pose proof (powerRZ_10_pos K) as HK. set (r := N mod 10 ^ Z.of_nat j) in *. set (t := 10 ^ Z.of_nat j) in *.
    destruct (Rle_or_lt (dec D' k') (dec N K)) as [L|L].
    + pose proof (cut_below N K HN D' k' j HD' ltac:(lia) ltac:(lia) L) as LB. fold t in LB. fold q in LB.
      rewrite (Rabs_left1 (dec D' k' - dec N K)) by lra.
      destruct Hc as [[-> _]|(-> & Hu & Hr)]; [rewrite Rabs_left1 by lra; lra|]. rewrite Rabs_right by lra.
      assert (HQx : scaled 10 s q (K + Z.of_nat j) = S754_finite s m e).
      { by apply (scaled_convex s m e D' k' _ _ N K); [..|apply scaled_NK]. }
      specialize (Hr HQx). apply IZR_le in Hr. rewrite mult_IZR in Hr.
      assert (IZR t * powerRZ 10 K <= 2 * IZR r * powerRZ 10 K)%R by (apply Rmult_le_compat_r; lra). lra.
    + pose proof (cut_above N K HN D' k' j HD' ltac:(lia) ltac:(lia) L) as LB. fold t in LB. fold q in LB.
      rewrite (Rabs_right (dec D' k' - dec N K)) by lra.
      destruct Hc as [(-> & Hu & Hr)|[-> _]]; [|rewrite Rabs_right by lra; lra]. rewrite Rabs_left1 by lra.
      assert (HQx : scaled 10 s (q + 1) (K + Z.of_nat j) = S754_finite s m e).
      { apply (scaled_convex s m e N K _ _ D' k'); [done|done|lia|done|lra|by apply scaled_NK|done]. }
      specialize (Hr HQx). apply IZR_le in Hr. rewrite mult_IZR in Hr.
      assert (2 * IZR r * powerRZ 10 K <= IZR t * powerRZ 10 K)%R by (apply Rmult_le_compat_r; lra). lra.
Qed.
