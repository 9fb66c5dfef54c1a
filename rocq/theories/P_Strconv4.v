(** What is written is read back. *)
From Coq Require Import Reals Psatz.
From Flocq Require Import Core BinarySingleNaN.
From Verif Require Import M_Strconv.
From stdpp Require Import strings pretty list.
From Verif Require Import Spec_Json Spec_Strconv P_Csv4 P_Strconv P_Strconv2 P_Strconv3.
From Coq Require Import Strings.Ascii.
Local Open Scope Z_scope.

(** ** Bounds *)
Lemma f64_bounds s m e : is_f64 (S754_finite s m e) -> -1074 <= e <= 971 /\ Zpos m < 2 ^ 53.
Proof.
  unfold is_f64. cbn [valid_binary]. unfold bounded, canonical_mantissa. intros H. apply andb_true_iff in H as [H1 H2].
  apply Zeq_bool_eq in H1. apply Zle_bool_imp_le in H2. unfold SpecFloat.fexp, SpecFloat.emin in H1.
  rewrite Digits.Zpos_digits2_pos in H1. pose proof (Digits.Zdigits_correct radix2 (Zpos m)) as [_ HD].
  split; [lia|]. assert (Hd : Digits.Zdigits radix2 (Zpos m) <= 53) by lia.
  change (Z.abs (Zpos m)) with (Zpos m) in HD. change (radix2 : Z) with 2 in HD.
  pose proof (Z.pow_le_mono_r 2 (Digits.Zdigits radix2 (Zpos m)) 53 ltac:(lia) Hd). lia.
Qed.
Lemma expansion_bounds m e : -1074 <= e <= 971 -> Zpos m < 2 ^ 53 ->
  0 < (expansion m e).1 < 10 ^ 4000 /\ -1074 <= (expansion m e).2 <= 0.
Proof.
  intros He Hm. unfold expansion. destruct e as [|e|e]; cbn [fst snd].
  - split; [|lia]. assert (2 ^ 53 < 10 ^ 4000) by reflexivity. lia.
  - split; [|lia]. pose proof (Z.pow_le_mono_r 2 (Zpos e) 971 ltac:(lia) ltac:(lia)) as H.
    pose proof (Z.pow_pos_nonneg 2 (Zpos e) ltac:(lia) ltac:(lia)). split; [nia|].
    apply Z.lt_le_trans with (2 ^ 53 * 2 ^ 971); [|by vm_compute]. apply Z.lt_le_trans with (2 ^ 53 * 2 ^ Zpos e); [nia|].
    apply Z.mul_le_mono_nonneg_l; [lia|done].
  - split; [|lia]. pose proof (Z.pow_le_mono_r 5 (Zpos e) 1074 ltac:(lia) ltac:(lia)) as H.
    pose proof (Z.pow_pos_nonneg 5 (Zpos e) ltac:(lia) ltac:(lia)). split; [nia|].
    apply Z.lt_le_trans with (2 ^ 53 * 5 ^ 1074); [|by vm_compute]. apply Z.lt_le_trans with (2 ^ 53 * 5 ^ Zpos e); [nia|].
    apply Z.mul_le_mono_nonneg_l; [lia|done].
Qed.
Lemma ndigits_le D n : 0 < D -> D < 10 ^ Z.of_nat n -> (ndigits D <= n)%nat.
Proof.
  intros H1 H2. destruct (ndigits_spec D H1) as [H3 [H4 _]].
  assert (10 ^ (Z.of_nat (ndigits D) - 1) < 10 ^ Z.of_nat n) as H by lia. apply Z.pow_lt_mono_r_iff in H; lia.
Qed.
Lemma ndigits_ge D n : 0 < D -> 10 ^ Z.of_nat n <= D -> (n < ndigits D)%nat.
Proof.
  intros H1 H2. destruct (ndigits_spec D H1) as [H3 [_ H4]].
  assert (10 ^ Z.of_nat n < 10 ^ Z.of_nat (ndigits D)) as H by lia. apply Z.pow_lt_mono_r_iff in H; lia.
Qed.
Lemma ndigits_mono D D' : 0 < D -> D <= D' -> (ndigits D <= ndigits D')%nat.
Proof. intros H1 H2. apply ndigits_le; [done|]. destruct (ndigits_spec D' ltac:(lia)) as [_ [_ H]]. lia. Qed.
Lemma shortest_from_bounds s x N K j : 0 < N -> (j < ndigits N)%nat -> let p := shortest_from s x N K j in
  0 <= p.1 <= N /\ K <= p.2 <= K + Z.of_nat j.
Proof.
  intros HN. induction j as [|j IH]; intros Hj; cbn [shortest_from]; [cbn [fst snd]; lia|].
  set (t := 10 ^ Z.of_nat (S j)).
  assert (Ht : 10 <= t <= N).
  { unfold t. destruct (ndigits_spec N HN) as [_ [H _]].
    pose proof (Z.pow_le_mono_r 10 (Z.of_nat (S j)) (Z.of_nat (ndigits N) - 1) ltac:(lia) ltac:(lia)).
    pose proof (Z.pow_le_mono_r 10 1 (Z.of_nat (S j)) ltac:(lia) ltac:(lia)). lia. }
  assert (Hd : 0 <= N / t /\ N / t + 1 <= N).
  { split; [apply Z.div_pos; lia|]. pose proof (Z.mul_div_le N t ltac:(lia)). pose proof (Z.div_le_upper_bound N t (N / 10)).
    assert (1 <= N / t) by (apply Z.div_le_lower_bound; lia). nia. }
  specialize (IH ltac:(lia)). destruct (bool_decide _), (bool_decide _); [destruct (decide _)|..]; cbn [fst snd]; cbn zeta in IH; lia.
Qed.
Lemma trim_bounds n p : 0 < p.1 -> let q := trim n p in 0 < q.1 <= p.1 /\ p.2 <= q.2 <= p.2 + Z.of_nat n.
Proof.
  revert p. induction n as [|n IH]; intros [D k] HD; cbn [trim fst snd] in *; [lia|]. destruct (decide _) as [H|H]; cbn [fst snd]; [|lia].
  pose proof (Z.div_mod D 10 ltac:(lia)). specialize (IH (D / 10, k + 1) ltac:(cbn [fst]; lia)). cbn [fst snd] in IH. cbn zeta in *. lia.
Qed.
Lemma shortest_bounds s m e : is_f64 (S754_finite s m e) -> Z.abs ((shortest s m e).2 + Z.of_nat (ndigits (shortest s m e).1) - 1) < 100000.
Proof.
  intros Hx. destruct (f64_bounds _ _ _ Hx) as [He Hm]. pose proof (expansion_bounds m e He Hm) as [HN HK].
  pose proof (expansion_exact m e) as [_ HE]. destruct (shortest_ok s m e Hx) as [_ HP].
  unfold shortest in *. destruct (expansion m e) as [N K]. cbn [fst snd] in *.
  assert (HnN : (ndigits N <= 4000)%nat) by (apply ndigits_le; [lia|change (Z.of_nat 4000) with 4000; lia]).
  destruct (ndigits_spec N ltac:(lia)) as [Hn1 _].
  pose proof (shortest_from_ok s m e N K (ndigits N - 1) Hx ltac:(lia) HE) as HS.
  pose proof (shortest_from_bounds s (S754_finite s m e) N K (ndigits N - 1) ltac:(lia) ltac:(lia)) as [B1 B2].
  destruct (shortest_from _ _ _ _ _) as [D k]. cbn [fst snd] in *. pose proof (scaled_pos _ _ _ _ _ HS) as HD.
  pose proof (trim_bounds (ndigits D - 1) (D, k) HD) as [T1 T2]. cbn [fst snd] in *.
  pose proof (ndigits_mono D N HD ltac:(lia)). pose proof (ndigits_mono _ D (proj1 T1) (proj2 T1)).
  destruct (ndigits_spec _ (proj1 T1)) as [Hn2 _]. lia.
Qed.

(** ** Round trips *)
Lemma fixed_roundtrip s m e : is_f64 (S754_finite s m e) ->
  parse_f64 (sign_text s +:+ fixed_text (shortest s m e)) = Some (S754_finite s m e).
Proof.
  intros Hx. destruct (shortest_ok s m e Hx) as [HS HP]. rewrite <- fixed_decimal_text.
  rewrite (parse_denotes _ s _ _ (fixed_decimal_denotes s _ HP) HP); [by rewrite HS|]. by vm_compute.
Qed.
Lemma exp_roundtrip s m e : is_f64 (S754_finite s m e) ->
  parse_f64 (sign_text s +:+ exp_text (shortest s m e)) = Some (S754_finite s m e).
Proof.
  intros Hx. destruct (shortest_ok s m e Hx) as [HS HP]. rewrite <- exp_decimal_text.
  destruct (exp_decimal_denotes s _ HP) as [HD HE].
  rewrite (parse_denotes _ s _ _ HD HP); [by rewrite HS|]. rewrite HE. by apply shortest_bounds.
Qed.
Lemma fmt_roundtrip x : is_f64 x -> parse_f64 (fmt_f64 x) = Some x.
Proof.
  destruct x as [[]|[]| |s m e]; intros Hx. 1-5: by vm_compute. by apply fixed_roundtrip.
Qed.
Lemma json_roundtrip x : is_f64 x -> parse_f64 (fmt_json x) = Some x.
Proof.
  intros Hx. pose proof (fmt_roundtrip x Hx) as H. destruct x as [s|s| |s m e]; try exact H.
  unfold fmt_json. destruct (_ || _); [by apply exp_roundtrip|done].
Qed.

(** ** Leading and trailing zeros *)
Lemma pretty_head D : 0 < D -> exists c r, pretty (Z.to_N D) = String c r /\ c <> "0"%char.
Proof.
  intros HD. destruct (pretty_ds D HD) as (P1 & P2 & P3). destruct (ndigits_spec D HD) as [N1 [N2 _]].
  destruct (pretty (Z.to_N D)) as [|c r]; [cbn [String.length] in P3; lia|]. exists c, r. split; [done|]. intros ->.
  cbn [value String.length digits] in *. destruct P1 as [_ P1]. pose proof (value_bounds r P1) as [_ HV].
  change (Z.of_nat (nat_of_ascii "0")) with 48 in P2. replace (Z.of_nat (ndigits D) - 1) with (Z.of_nat (String.length r)) in N2 by lia. lia.
Qed.
Lemma trim_end n p : 0 < p.1 -> (ndigits p.1 <= S n)%nat -> (trim n p).1 mod 10 <> 0.
Proof.
  revert p. induction n as [|n IH]; intros [D k] HD Hn; cbn [trim fst snd] in *.
  - destruct (ndigits_spec D HD) as [_ [_ H]]. assert (10 ^ Z.of_nat (ndigits D) <= 10 ^ 1) by (apply Z.pow_le_mono_r; lia).
    rewrite Z.mod_small by lia. lia.
  - destruct (decide _) as [H|H]; [|done]. pose proof (Z.div_mod D 10 ltac:(lia)) as E. rewrite H in E. apply IH; cbn [fst]; [lia|].
    apply ndigits_le; [lia|]. destruct (ndigits_spec D HD) as [_ [_ H']].
    assert (10 ^ Z.of_nat (ndigits D) <= 10 ^ Z.of_nat (S (S n))) as H3 by (apply Z.pow_le_mono_r; lia).
    rewrite (Nat2Z.inj_succ (S n)), Z.pow_succ_r in H3 by lia. lia.
Qed.
Lemma shortest_end s m e : is_f64 (S754_finite s m e) -> (shortest s m e).1 mod 10 <> 0.
Proof.
  intros Hx. unfold shortest. pose proof (expansion_exact m e) as HE. destruct (expansion m e) as [N K]. destruct HE as [HN HE]. cbn [fst snd] in *.
  pose proof (shortest_from_ok s m e N K (ndigits N - 1) Hx HN HE) as H. destruct (shortest_from _ _ _ _ _) as [D k]. cbn [fst snd] in H.
  pose proof (scaled_pos _ _ _ _ _ H) as HD. apply trim_end; cbn [fst]; [done|lia].
Qed.
Lemma last_zero s t r D : value (s +:+ t) = D -> t = r +:+ "0" -> D mod 10 = 0.
Proof.
  intros <- ->. rewrite <- app_assoc', value_app. change (value "0") with 0. change (10 ^ Z.of_nat (String.length "0")) with 10.
  rewrite Z.add_0_r. by apply Z.mod_mul.
Qed.
Lemma fixed_canonical s p : 0 < p.1 -> p.1 mod 10 <> 0 -> canonical (fixed_decimal s p).
Proof.
  intros HD HM. destruct (pretty_ds _ HD) as (P1 & P2 & P3). destruct (pretty_head _ HD) as (c & r & HR & Hc).
  destruct (ndigits_spec _ HD) as [N1 _].
  unfold canonical, fixed_decimal. cbn [de_sign de_int de_frac]. split; [destruct s; auto|]. unfold fixed_parts.
  set (ds := pretty (Z.to_N p.1)) in *. destruct p.2 as [|f|f]; cbn [fst snd].
  1,2: split; [|done]; right; rewrite HR, app_cons; eauto.
  rewrite P3. destruct (Nat.ltb (Pos.to_nat f) (ndigits p.1)) eqn:EL; cbn [fst snd].
  - apply Nat.ltb_lt in EL. destruct (substring_cut ds (ndigits p.1 - Pos.to_nat f) ltac:(lia)) as (E1 & E2 & E3).
    rewrite P3 in E1, E3. replace (ndigits p.1 - (ndigits p.1 - Pos.to_nat f))%nat with (Pos.to_nat f) in E1, E3 by lia.
    split; [|split].
    + right. rewrite HR. destruct (ndigits p.1 - Pos.to_nat f)%nat as [|a] eqn:Ea; [lia|]. cbn [substring]. eauto.
    + intros E. rewrite E in E3. cbn [String.length] in E3. lia.
    + intros r' E. apply HM. eapply last_zero; [|exact E]. by rewrite E1.
  - split; [by left|]. split.
    + rewrite HR. destruct (zeros _); [done|]. by rewrite app_cons.
    + intros r' E. apply HM. destruct (zeros_digits (Pos.to_nat f - ndigits p.1)) as (Z1 & Z2 & Z3).
      apply (last_zero "" (zeros (Pos.to_nat f - ndigits p.1) +:+ ds) r'); [|done].
      rewrite app_nil, value_app, Z2, P2. lia.
Qed.
Lemma exp_canonical s p : 0 < p.1 -> p.1 mod 10 <> 0 -> canonical (exp_decimal s p).
Proof.
  intros HD HM. destruct (pretty_ds _ HD) as (P1 & P2 & P3). destruct (pretty_head _ HD) as (c & r & HR & Hc).
  destruct (ndigits_spec _ HD) as [N1 _].
  unfold canonical, exp_decimal. cbn [de_sign de_int de_frac]. split; [destruct s; auto|]. unfold exp_parts. cbn [fst snd].
  set (ds := pretty (Z.to_N p.1)) in *. rewrite P3.
  destruct (substring_cut ds 1 ltac:(lia)) as (E1 & E2 & E3). rewrite P3 in E1, E3. split.
  - right. rewrite HR. cbn [substring]. eauto.
  - destruct (decide _) as [Hn|Hn]; [done|]. split.
    + intros E. rewrite E in E3. cbn [String.length] in E3. lia.
    + intros r' E. apply HM. eapply last_zero; [|exact E]. by rewrite E1.
Qed.

(** ** JSON numbers *)
Lemma brange_digit c : brange 48 (code c) 57 = bool_decide (48 <= nat_of_ascii c <= 57)%nat.
Proof. destruct c as [[] [] [] [] [] [] [] []]; reflexivity. Qed.
Lemma num_digits q s t : digits s -> q = NInt \/ q = NFrac \/ q = NExp -> num_run q (s +:+ t) = num_run q t.
Proof.
  intros H Hq. induction s as [|c s IH]; [by rewrite app_nil|]. destruct H as [H1 H2]. rewrite app_cons. cbn [num_run].
  assert (E : num_step q c = Some q).
  { destruct Hq as [-> | [-> | ->]]; cbn [num_step]; rewrite brange_digit, bool_decide_eq_true_2 by done; done. }
  rewrite E. by apply IH.
Qed.
Lemma num_more q q' s t : digits s -> s <> "" -> (q = NDot /\ q' = NFrac) \/ (q = NE /\ q' = NExp) \/ (q = NSign /\ q' = NExp) ->
  num_run q (s +:+ t) = num_run q' t.
Proof.
  intros H Hn Hq. destruct s as [|c s]; [done|]. destruct H as [H1 H2]. rewrite app_cons. cbn [num_run].
  assert (E : num_step q c = Some q').
  { destruct Hq as [[-> ->] | [[-> ->] | [-> ->]]]; cbn [num_step]; rewrite brange_digit, bool_decide_eq_true_2 by done; done. }
  rewrite E. apply num_digits; [done|]. destruct Hq as [[-> ->] | [[-> ->] | [-> ->]]]; auto.
Qed.
Lemma canonical_number d : decimal_ok d -> canonical d -> json_number (decimal_text d) = true.
Proof.
  destruct d as [sg ip fp o]. unfold decimal_ok, canonical, decimal_text. cbn [de_sign de_int de_frac de_exp].
  intros (_ & H2 & H3 & _ & H5) (C1 & C2 & C3). fold (tail_ok o) in H5. fold (tail_text o).
  assert (HT : forall q, q = NZero \/ q = NInt \/ q = NFrac ->
    match num_run q (tail_text o) with Some (NZero | NInt | NFrac | NExp) => true | _ => false end = true).
  { intros q Hq. destruct o as [[[c s] e]|]; cbn [tail_text]; [|by destruct Hq as [-> | [-> | ->]]].
    destruct H5 as (Hc & Hs & He & Hn). cbn [num_run].
    assert (num_step q c = Some NE) as ->.
    { destruct Hq as [-> | [-> | ->]], Hc as [-> | ->]; reflexivity. }
    rewrite <- (app_nil_r' e). destruct Hs as [-> | [-> | ->]].
    - rewrite app_nil, (num_more NE NExp) by auto. done.
    - rewrite app_cons, app_nil. cbn [num_run]. change (num_step NE "+") with (Some NSign). cbv iota. rewrite (num_more NSign NExp) by auto. done.
    - rewrite app_cons, app_nil. cbn [num_run]. change (num_step NE "-") with (Some NSign). cbv iota. rewrite (num_more NSign NExp) by auto. done. }
  assert (HF : forall q, q = NZero \/ q = NInt ->
    match num_run q (match fp with None => "" | Some f => "." +:+ f end +:+ tail_text o) with Some (NZero | NInt | NFrac | NExp) => true | _ => false end = true).
  { intros q Hq. destruct fp as [f|]; [|rewrite app_nil; apply HT; tauto]. destruct C3 as [C3 _]. rewrite app_cons, app_nil, app_cons. cbn [num_run].
    assert (num_step q "." = Some NDot) as -> by (by destruct Hq as [-> | ->]). cbv iota.
    rewrite (num_more NDot NFrac) by auto. apply HT. auto. }
  unfold json_number. assert (HI : forall q, q = NStart \/ q = NNeg ->
    exists q', (q' = NZero \/ q' = NInt) /\ forall t, num_run q (ip +:+ t) = num_run q' t).
  { intros q Hq. destruct C2 as [-> | (c & r & -> & Hc)].
    - exists NZero. split; [auto|]. intros t. rewrite app_cons, app_nil. by destruct Hq as [-> | ->].
    - exists NInt. split; [auto|]. intros t. destruct H2 as [H1 H2]. rewrite app_cons. cbn [num_run].
      assert (E : num_step q c = Some NInt).
      { assert (c <> "-"%char) by (intros ->; by vm_compute in H1; lia).
        destruct Hq as [-> | ->]; cbn [num_step]; rewrite brange_digit, bool_decide_eq_true_2 by done; by rewrite !decide_False. }
      rewrite E. apply num_digits; auto. }
  destruct C1 as [-> | ->].
  - rewrite app_nil. destruct (HI NStart (or_introl eq_refl)) as (q' & Hq' & HI'). rewrite HI'. by apply HF.
  - rewrite app_cons, app_nil. cbn [num_run]. change (num_step NStart "-") with (Some NNeg). cbv iota.
    destruct (HI NNeg (or_intror eq_refl)) as (q' & Hq' & HI'). rewrite HI'. by apply HF.
Qed.
Lemma json_exact : @exact_numbers go_jrt.
Proof.
  intros x Hx [Hn Hi]. split; [|by apply json_roundtrip]. cbn [fmt_num go_jrt].
  destruct x as [s|s| |s m e]; [by destruct s|by destruct (Hi s)|done|]. destruct (shortest_ok s m e Hx) as [_ HP]. pose proof (shortest_end s m e Hx) as HM.
  unfold fmt_json. destruct (_ || _).
  - rewrite <- exp_decimal_text. apply canonical_number; [apply (exp_decimal_denotes s _ HP)|by apply exp_canonical].
  - cbn [fmt_f64]. rewrite <- fixed_decimal_text. apply canonical_number; [apply (fixed_decimal_denotes s _ HP)|by apply fixed_canonical].
Qed.
