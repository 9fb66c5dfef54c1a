(** C91: of two shortest decimals at the same distance the even one is written. *)
From Coq Require Import Reals Psatz.
From Flocq Require Import Core BinarySingleNaN.
From Verif Require Import M_Strconv.
From Verif Require Import P_Exec.
From stdpp Require Import strings pretty list.
From Verif Require Import P_CsvMain Spec_Csv P_Float P_FloatEx Spec_Json Spec_Strconv P_Csv4 P_Strconv P_Strconv2 P_Strconv3 P_Strconv4 P_Strconv5 P_Strconv6 P_Strconv7 P_StrconvMain.
Local Open Scope Z_scope.

Lemma shortest_from_tie s m e N K J : is_f64 (S754_finite s m e) -> 0 < N -> dec N K = (IZR (Zpos m) * bpow radix2 e)%R ->
  exists j : nat, (shortest_from s (S754_finite s m e) N K J).2 = K + Z.of_nat j /\
  let q := N / 10 ^ Z.of_nat j in let r := N mod 10 ^ Z.of_nat j in
  ((shortest_from s (S754_finite s m e) N K J).1 = q /\
     (scaled 10 s (q + 1) (K + Z.of_nat j) = S754_finite s m e -> 2 * r = 10 ^ Z.of_nat j -> Z.odd q = false)) \/
  ((shortest_from s (S754_finite s m e) N K J).1 = q + 1 /\ r <> 0 /\
     (scaled 10 s q (K + Z.of_nat j) = S754_finite s m e -> 2 * r = 10 ^ Z.of_nat j -> Z.odd q = true)).
Proof.
  intros Hx HN HE. assert (HNK : scaled 10 s N K = S754_finite s m e) by (by apply scaled_exact). induction J as [|J IH].
  - exists 0%nat. cbn [shortest_from fst snd]. change (Z.of_nat 0) with 0. rewrite Z.pow_0_r, Z.div_1_r, Z.mod_1_r, Z.add_0_r.
    split; [done|]. left. split; [done|]. lia.
  - cbn [shortest_from]. set (t := 10 ^ Z.of_nat (S J)).
    assert (Ht : 0 < t) by (apply Z.pow_pos_nonneg; lia).
    assert (Hex : N mod t = 0 -> scaled 10 s (N / t) (K + Z.of_nat (S J)) = S754_finite s m e).
    { intros H. rewrite <- HNK. pose proof (Z.div_mod N t ltac:(lia)) as HD. apply scaled_dec; [|done|].
      - assert (N = t * (N / t)) by lia. nia.
      - rewrite <- dec_shift by lia. fold t. f_equal. lia. }
    destruct (bool_decide (scaled 10 s (N / t) (K + Z.of_nat (S J)) = S754_finite s m e)) eqn:E1;
      destruct (bool_decide (scaled 10 s (N / t + 1) (K + Z.of_nat (S J)) = S754_finite s m e)) eqn:E2;
      (try apply bool_decide_eq_true in E1); (try apply bool_decide_eq_true in E2);
      (try apply bool_decide_eq_false in E1); (try apply bool_decide_eq_false in E2).
    1-3: exists (S J).
    + destruct (decide _) as [H|H]; cbn [fst snd]; (split; [done|]); fold t.
      * right. split; [done|]. split; [lia|]. intros _ E. destruct H as [H|[_ H]]; [lia|done].
      * left. split; [done|]. intros _ E. destruct (Z.odd (N / t)); [|done]. exfalso. apply H. right. done.
    + cbn [fst snd]. split; [done|]. left. split; [done|]. fold t. intros H. by destruct E2.
    + cbn [fst snd]. split; [done|]. right. split; [done|]. fold t. split; [intros H; by destruct E1; apply Hex|]. intros H. by destruct E1.
    + exact IH.
Qed.
Lemma trim_scale n : forall p, exists a, 0 <= a /\ p.1 = (trim n p).1 * 10 ^ a /\ (trim n p).2 = p.2 + a.
Proof.
  induction n as [|n IH]; intros p; cbn [trim].
  - exists 0. rewrite Z.pow_0_r. lia.
  - destruct (decide (p.1 mod 10 = 0)) as [H|H]; [|exists 0; rewrite Z.pow_0_r; lia].
    destruct (IH (p.1 / 10, p.2 + 1)) as (a & Ha & H1 & H2). cbn [fst snd] in H1, H2. exists (a + 1). split; [lia|].
    rewrite Z.pow_add_r, Z.pow_1_r by lia. pose proof (Z.div_mod p.1 10 ltac:(lia)). split; [lia|]. rewrite H2. lia.
Qed.
Lemma shortest_even s m e (p := shortest s m e) : is_f64 (S754_finite s m e) ->
  forall D', 0 < D' -> scaled 10 s D' p.2 = S754_finite s m e -> D' <> p.1 ->
  Rabs (dec D' p.2 - IZR (Zpos m) * bpow radix2 e) = Rabs (dec p.1 p.2 - IZR (Zpos m) * bpow radix2 e) -> Z.even p.1 = true.
Proof.
  intros Hx D' HD' HI Hne HR.
  pose proof (expansion_exact m e) as [HN HE]. unfold shortest in p. destruct (expansion m e) as [N K]. cbn [fst snd] in *.
  destruct (shortest_from_tie s m e N K (ndigits N - 1) Hx HN HE) as (j & Hk & Hc). cbv zeta in Hc.
  destruct (shortest_from s (S754_finite s m e) N K (ndigits N - 1)) as [D k]. cbn [fst snd] in *. subst k.
  destruct (trim_scale (ndigits D - 1) (D, K + Z.of_nat j)) as (a & Ha & T1 & T2). fold p in T1, T2. cbn [fst snd] in T1, T2.
  set (t := 10 ^ Z.of_nat j) in *. assert (Ht : 0 < t) by (apply Z.pow_pos_nonneg; lia).
  pose proof (Z.div_mod N t ltac:(lia)) as HDM. pose proof (Z.mod_pos_bound N t Ht) as HM.
  set (q := N / t) in *. set (r := N mod t) in *. set (A := 10 ^ a) in *. assert (HA : 0 < A) by (apply Z.pow_pos_nonneg; lia).
  assert (HA' : a = 0 \/ 10 <= A).
  { destruct (decide (a = 0)) as [?|Hz]; [by left|right]. unfold A. change 10 with (10 ^ 1) at 1. apply Z.pow_le_mono_r; lia. }
  assert (Hs : D' * (t * A) + p.1 * (t * A) = 2 * N).
  { replace p.2 with (K + (Z.of_nat j + a)) in HR by lia. rewrite <- !dec_shift in HR by lia. rewrite Z.pow_add_r in HR by lia. fold t A in HR.
    change (IZR N * powerRZ 10 K)%R with (dec N K) in HE. rewrite <- HE in HR. unfold dec in HR. pose proof (powerRZ_10_pos K) as HK.
    rewrite <- !Rmult_minus_distr_r, !Rabs_mult in HR. apply Rmult_eq_reg_r in HR; [|apply Rabs_no_R0; lra].
    rewrite <- !minus_IZR, <- !abs_IZR in HR. apply eq_IZR in HR. assert (D' * (t * A) <> p.1 * (t * A)) by nia. lia. }
  destruct Hc as [[HD Ho]|(HD & Hr & Ho)].
  - assert (HW : (D' - p.1) * (t * A) = 2 * r) by nia.
    assert (Ha0 : a = 0). { destruct HA' as [?|HA']; [done|]. exfalso. assert (Hz : 10 * t <= t * A) by nia. revert HW Hz. generalize (t * A). intros B HW Hz.
      destruct (Z.lt_trichotomy (D' - p.1) 0) as [?|[?|?]]; [nia|lia|nia]. }
    subst a. unfold A in *. rewrite Z.pow_0_r in *.
    assert (D' - p.1 = 1 /\ 2 * r = t) as [HW1 HW2].
    { assert (D' - p.1 <> 0) by lia. assert (0 <= D' - p.1) by nia. assert (D' - p.1 < 2) by nia. assert (D' - p.1 = 1) as E1 by lia. split; [done|]. nia. }
    assert (D' = q + 1) by lia. subst D'. replace p.2 with (K + Z.of_nat j) in HI by lia.
    specialize (Ho HI HW2). replace p.1 with q by lia. rewrite <- Z.negb_odd. by rewrite Ho.
  - assert (HW : (p.1 - D') * (t * A) = 2 * (t - r)) by nia.
    assert (Ha0 : a = 0). { destruct HA' as [?|HA']; [done|]. exfalso. assert (Hz : 10 * t <= t * A) by nia. revert HW Hz. generalize (t * A). intros B HW Hz.
      destruct (Z.lt_trichotomy (p.1 - D') 0) as [?|[?|?]]; [nia|lia|nia]. }
    subst a. unfold A in *. rewrite Z.pow_0_r in *.
    assert (p.1 - D' = 1 /\ 2 * r = t) as [HW1 HW2].
    { assert (0 < p.1 - D') by nia. assert (p.1 - D' < 2) by nia. assert (p.1 - D' = 1) as E1 by lia. split; [done|]. nia. }
    assert (D' = q) by lia. subst D'. replace p.2 with (K + Z.of_nat j) in HI by lia.
    specialize (Ho HI HW2). replace p.1 with (q + 1) by lia. rewrite Z.even_add. rewrite <- Z.negb_odd, Ho. done.
Qed.
(** Of two decimals with the same exponent, at the same distance from [x] and
    rounded to [x], [D * 10^k] is the one whose last digit is even. *)
Definition half_even (x : spec_float) (D k : Z) : Prop :=
  forall D' n, short_for x D' k n -> D' <> D ->
    (Rabs ((if negative x then -1 else 1) * IZR D' * powerRZ 10 k - real_of x) =
     Rabs ((if negative x then -1 else 1) * IZR D * powerRZ 10 k - real_of x))%R -> Z.even D = true.
Lemma C91_ties_main : forall x, is_f64 x -> finite x -> real_of x <> 0%R ->
  exists d dj D k, decimal_text d = fmt_f64 x /\ decimal_text dj = fmt_json x /\ decimal_value d = decimal_value dj /\
    best_for x (decimal_value d) D k /\ half_even x D k.
Proof.
  intros x Hx [Hn Hi] H0. destruct x as [s|s| |s m e]; [by destruct H0|by destruct (Hi s)|done|].
  destruct (shortest_ok s m e Hx) as [HS HP]. pose proof (fixed_decimal_denotes s _ HP) as HF. destruct (exp_decimal_denotes s _ HP) as [HX _].
  exists (fixed_decimal s (shortest s m e)).
  set (big := f64_lt (S754_finite false m e) (scaled 10 false 1 (-6)) || f64_le (scaled 10 false 1 21) (S754_finite false m e)).
  exists (if big then exp_decimal s (shortest s m e) else fixed_decimal s (shortest s m e)), (shortest s m e).1, (shortest s m e).2.
  split; [apply fixed_decimal_text|]. split.
  { unfold fmt_json. fold big. destruct big; [apply exp_decimal_text; done|apply fixed_decimal_text]. }
  split. { destruct big; [|done]. by rewrite (denotes_value _ _ _ _ HF), (denotes_value _ _ _ _ HX). }
  split. { rewrite (denotes_value _ _ _ _ HF). by apply best_shortest. }
  intros D' n HD' Hne HR. apply short_for_iff in HD' as [[HD' _] HS']; [|done].
  apply (shortest_even s m e Hx D' HD' HS' Hne). cbn [negative] in HR. change (if s then -1 else 1)%R with (sgn s) in HR.
  rewrite !Rmult_assoc in HR. change (real_of (S754_finite s m e)) with (f64_R (S754_finite s m e)) in HR.
  rewrite f64_R_finite, <- !Rmult_minus_distr_l, !sgn_abs in HR. exact HR.
Qed.
Definition w_tie : f64 := S754_finite false 4503599627370497 (-2).
Lemma C91_ties_check_main : is_f64 w_tie /\ finite w_tie /\ fmt_f64 w_tie = "1125899906842624.2" /\
  parse_f64 "1125899906842624.3" = Some w_tie /\ parse_f64 "1125899906842624.25" = Some w_tie.
Proof. split; [by vm_compute|]. split; [split; [done|intros b; done]|]. split; [by vm_compute|]. split; by vm_compute. Qed.
