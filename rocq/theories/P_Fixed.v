(** Printing with a fixed number of decimals. *)
From Coq Require Import Reals Psatz.
From Flocq Require Import Core BinarySingleNaN.
From Verif Require Import M_Fixed.
From Verif Require Import P_Exec.
From stdpp Require Import strings pretty list.
From Verif Require Import P_Float P_FloatEx Spec_Json Spec_Strconv Spec_Fixed P_Csv4 P_Strconv P_Strconv2 P_Strconv3.
From Coq Require Import Strings.Ascii.
Local Open Scope Z_scope.

Lemma round_div_spec a b : 0 < b -> ZnearestE (IZR a / IZR b) = round_div a b.
Proof.
  intros Hb. assert (HB : (0 < IZR b)%R) by (by apply IZR_lt). unfold Znearest, round_div.
  pose proof (Zfloor_div a b ltac:(lia)) as EF. rewrite EF.
  assert (ED : (IZR a / IZR b - IZR (a / b) = IZR (a mod b) / IZR b)%R).
  { pose proof (Z.div_mod a b ltac:(lia)) as E. apply (f_equal IZR) in E. rewrite plus_IZR, mult_IZR in E. rewrite E at 1. field. lra. }
  rewrite ED. assert (HC : (2 * (a mod b) ?= b) = Rcompare (IZR (a mod b) / IZR b) (/ 2)).
  { symmetry. rewrite <- Rcompare_IZR, mult_IZR.
    rewrite <- (Rcompare_mult_r (2 * IZR b) (IZR (a mod b) / IZR b) (/ 2)) by lra. f_equal; field; lra. }
  rewrite HC. assert (HU : a mod b <> 0 -> Zceil (IZR a / IZR b) = a / b + 1).
  { intros H. rewrite Zceil_floor_neq, EF; [done|]. rewrite EF. intros E. apply H. apply eq_IZR.
    rewrite <- E in ED. replace (IZR a / IZR b - IZR (a / b))%R with 0%R in ED; [|rewrite E; ring].
    apply (Rmult_eq_compat_r (IZR b)) in ED. unfold Rdiv in ED. rewrite Rmult_assoc, Rinv_l in ED by lra. lra. }
  destruct (Rcompare_spec (IZR (a mod b) / IZR b) (/ 2)) as [H|H|H]; [done| |].
  - destruct (Z.even (a / b)); [done|]. apply HU. intros E. rewrite E in H. unfold Rdiv in H. lra.
  - apply HU. intros E. rewrite E in H. unfold Rdiv in H. lra.
Qed.
Lemma round_div_nonneg a b : 0 <= a -> 0 < b -> 0 <= round_div a b.
Proof. intros Ha Hb. unfold round_div. pose proof (Z.div_pos a b Ha Hb). repeat case_match; lia. Qed.
Lemma IZR_pow10 p : 0 <= p -> IZR (10 ^ p) = powerRZ 10 p.
Proof. intros Hp. destruct p as [|p|p]; [done| |lia]. rewrite <- Pos2Z.inj_pow. apply pow_pos_IZR. Qed.
Lemma fixed_units_spec p m e : 0 <= p -> fixed_units p m e = ZnearestE (IZR (Zpos m) * bpow radix2 e * powerRZ 10 p).
Proof.
  intros Hp. rewrite <- IZR_pow10 by done. unfold fixed_units. destruct e as [|k|k].
  - cbn [bpow]. rewrite Rmult_1_r, <- mult_IZR, (Zrnd_IZR ZnearestE). lia.
  - change (bpow radix2 (Z.pos k)) with (IZR (2 ^ Zpos k)). by rewrite <- !mult_IZR, (Zrnd_IZR ZnearestE).
  - change (bpow radix2 (Z.neg k)) with (/ IZR (2 ^ Zpos k))%R.
    rewrite <- round_div_spec by (apply Z.pow_pos_nonneg; lia). f_equal. rewrite mult_IZR. unfold Rdiv. ring.
Qed.
Lemma fixed_units_nonneg p m e : 0 <= p -> 0 <= fixed_units p m e.
Proof.
  intros Hp. unfold fixed_units. pose proof (Z.pow_nonneg 10 p). 
  destruct e as [|k|k]; [nia| |apply round_div_nonneg; [nia|apply Z.pow_pos_nonneg; lia]].
  pose proof (Z.pow_nonneg 2 (Zpos k)). nia.
Qed.
Lemma nearest_opp r : ZnearestE (- r) = - ZnearestE r.
Proof.
  rewrite Znearest_opp. f_equal. unfold Znearest. destruct (Rcompare _ _); [|done|done].
  rewrite Bool.negb_involutive, Z.even_opp, Z.even_add. by destruct (Z.even (Zfloor r)).
Qed.
Lemma nearest_sgn s r : IZR (ZnearestE (sgn s * r)) = (sgn s * IZR (ZnearestE r))%R.
Proof.
  destruct s; cbn [sgn].
  - replace (-1 * r)%R with (- r)%R by ring. rewrite nearest_opp, opp_IZR. ring.
  - by rewrite !Rmult_1_l.
Qed.

(** A number without zeros in front. *)
Lemma pretty_plain D : 0 <= D -> plain_int (pretty (Z.to_N D)).
Proof.
  intros HD. destruct (decide (D = 0)) as [-> |H]; [by left|]. right.
  destruct (pretty_ds D ltac:(lia)) as (P1 & P2 & P3). destruct (ndigits_spec D ltac:(lia)) as (N1 & N2 & N3).
  destruct (pretty (Z.to_N D)) as [|c r] eqn:E. { cbn in P3. lia. }
  exists c, r. split; [done|]. intros ->. cbn [value digits String.length] in *. destruct P1 as [_ P1]. pose proof (value_bounds r P1) as [_ B].
  change (Z.of_nat (nat_of_ascii "0") - 48) with 0 in P2. rewrite Z.mul_0_l, Z.add_0_l in P2. 
  replace (Z.of_nat (ndigits D) - 1) with (Z.of_nat (String.length r)) in N2 by lia. lia.
Qed.
Lemma plain_cut s a : plain_int s -> (0 < a)%nat -> plain_int (substring 0 a s).
Proof.
  intros [-> |(c & r & -> & H)] Ha; (destruct a as [|a]; [lia|]); cbn [substring].
  - left. by destruct a.
  - right. by exists c, (substring 0 a r).
Qed.
Lemma fixed_shape s K p : 0 <= p -> 0 <= K -> let d := fixed_decimal s (K, - p) in
  decimal_ok d /\ plain_int (de_int d) /\ value (de_int d +:+ default "" (de_frac d)) = K /\
  match de_frac d with None => p = 0 | Some f => 0 < p /\ len f = p end.
Proof.
  intros Hp HK. cbv zeta. destruct (pretty_digits (Z.to_N K)) as (P1 & P2). pose proof (pretty_plain K HK) as P3.
  rewrite Z2N.id in P2 by done. destruct (sign_text_ok s) as [S1 S2].
  unfold fixed_decimal, decimal_ok. cbn [de_sign de_int de_frac de_exp]. unfold fixed_parts. cbn [fst snd].
  set (ds := pretty (Z.to_N K)) in *.
  assert (Hne : ds <> "") by (destruct P3 as [-> |(? & ? & -> & _)]; done).
  destruct p as [|f|f]; [| |lia].
  - change (- 0) with 0. cbv iota. cbn [fst snd default]. change (Z.to_nat 0) with O. cbn [zeros Nat.iter]. change (zeros 0) with "". rewrite !app_nil_r'.
    split_and!; auto; done.
  - change (- Z.pos f) with (Z.neg f). cbv iota. destruct (Nat.ltb_spec (Pos.to_nat f) (String.length ds)) as [L|L]; cbn [fst snd default]; unfold Datatypes.id.
    + destruct (substring_cut ds (String.length ds - Pos.to_nat f) ltac:(lia)) as (E1 & E2 & E3).
      replace (String.length ds - (String.length ds - Pos.to_nat f))%nat with (Pos.to_nat f) in E1, E3 by lia.
      pose proof P1 as P1'. rewrite <- E1 in P1'. apply digits_app in P1' as [Pa Pb]. split_and!; try done.
      * left. intros E. rewrite E in E2. cbn [String.length] in E2. lia.
      * apply plain_cut; [done|lia].
      * by rewrite E1.
      * rewrite E3. lia.
    + destruct (zeros_digits (Pos.to_nat f - String.length ds)) as (Z1 & Z2 & Z3). split_and!; try done.
      * by vm_compute; repeat split; repeat constructor.
      * apply digits_app. done.
      * by left.
      * by left.
      * rewrite !value_app, Z2, P2. change (value "0") with 0. lia.
      * rewrite length_app, Z3. lia.
Qed.
Lemma fixed_value s K p : 0 <= p -> 0 <= K -> decimal_value (fixed_decimal s (K, - p)) = (sgn s * IZR K * powerRZ 10 (- p))%R.
Proof.
  intros Hp HK. destruct (fixed_shape s K p Hp HK) as (_ & _ & V & F). unfold decimal_value. rewrite V.
  assert (EM : minus_sign (fixed_decimal s (K, - p)) = s) by apply sign_text_ok. rewrite EM.
  assert (EE : decimal_exp (fixed_decimal s (K, - p)) - len (default "" (de_frac (fixed_decimal s (K, - p)))) = - p).
  { change (decimal_exp _) with 0. destruct (de_frac _) as [f|]; cbn [default]; [unfold Datatypes.id; lia|]. cbn [String.length]. lia. }
  rewrite EE. destruct s; done.
Qed.

Lemma fmt_prec_shows p x : 0 <= p -> shows p x (fmt_prec p x).
Proof.
  intros Hp. destruct x as [s|s| |s m e]; cbn [shows fmt_prec negative]; [|done|done|].
  - exists (fixed_decimal s (0, - p)). destruct (fixed_shape s 0 p Hp ltac:(lia)) as (A & B & _ & C).
    split; [by rewrite fixed_decimal_text|]. split_and!; try done.
    rewrite fixed_value by lia. unfold to_decimals, real_of. cbn [SF2R]. rewrite Rmult_0_l, (Zrnd_IZR ZnearestE). ring.
  - exists (fixed_decimal s (fixed_units p m e, - p)). pose proof (fixed_units_nonneg p m e Hp) as HK.
    destruct (fixed_shape s _ p Hp HK) as (A & B & _ & C).
    split; [by rewrite fixed_decimal_text|]. split_and!; try done.
    rewrite fixed_value, fixed_units_spec by done. unfold to_decimals. f_equal. rewrite <- nearest_sgn. do 2 f_equal.
    change (real_of (S754_finite s m e)) with (f64_R (S754_finite s m e)). rewrite f64_R_finite. ring.
Qed.

(** The text is unique. *)
Lemma digits_inj s : forall t, digits s -> digits t -> String.length s = String.length t -> value s = value t -> s = t.
Proof.
  induction s as [|c s IH]; intros [|c' t] Hs Ht HL HV; try done. cbn [digits value String.length] in *. injection HL as HL.
  destruct Hs as [C1 Hs], Ht as [C2 Ht]. pose proof (value_bounds s Hs) as B1. pose proof (value_bounds t Ht) as B2.
  rewrite HL in B1, HV. set (P := 10 ^ len t) in *.
  assert (nat_of_ascii c = nat_of_ascii c') as EC by nia.
  assert (c = c') as -> by (rewrite <- (ascii_nat_embedding c), EC; apply ascii_nat_embedding).
  f_equal. apply IH; try done. lia.
Qed.
Lemma plain_low s : plain_int s -> digits s -> s <> "0" -> 10 ^ (len s - 1) <= value s.
Proof.
  intros [-> |(c & r & -> & H)] Hd Hn; [done|]. cbn [digits value String.length] in *. destruct Hd as [C Hr].
  pose proof (value_bounds r Hr) as [B _]. replace (Z.of_nat (S (String.length r)) - 1) with (len r) by lia.
  assert (nat_of_ascii c <> 48)%nat. { intros E. apply H. rewrite <- (ascii_nat_embedding c), E. done. }
  pose proof (Z.pow_pos_nonneg 10 (len r)). nia.
Qed.
Lemma plain_length s t : plain_int s -> plain_int t -> digits s -> digits t -> value s = value t -> String.length s = String.length t.
Proof.
  intros Hs Ht Ds Dt E. destruct (decide (s = "0")) as [-> |Ns], (decide (t = "0")) as [-> |Nt]; [done| | |].
  - pose proof (plain_low t Ht Dt Nt) as L. rewrite <- E in L. change (value "0") with 0 in L. pose proof (Z.pow_pos_nonneg 10 (len t - 1)).
    destruct Ht as [-> |(c & r & -> & _)]; [done|]. cbn [String.length] in *. lia.
  - pose proof (plain_low s Hs Ds Ns) as L. rewrite E in L. change (value "0") with 0 in L. pose proof (Z.pow_pos_nonneg 10 (len s - 1)).
    destruct Hs as [-> |(c & r & -> & _)]; [done|]. cbn [String.length] in *. lia.
  - pose proof (plain_low s Hs Ds Ns) as L1. pose proof (plain_low t Ht Dt Nt) as L2.
    pose proof (value_bounds s Ds) as [_ B1]. pose proof (value_bounds t Dt) as [_ B2]. rewrite E in *.
    assert (len s - 1 < len t) by (apply (Z.pow_lt_mono_r_iff 10); lia).
    assert (len t - 1 < len s) by (apply (Z.pow_lt_mono_r_iff 10); lia). lia.
Qed.
Lemma split_inj a b c d P : a * P + b = c * P + d -> 0 <= b < P -> 0 <= d < P -> a = c /\ b = d.
Proof. intros E Hb Hd. assert (a = c) as -> by nia. split; [done|lia]. Qed.
Lemma shows_unique p x s t : shows p x s -> shows p x t -> s = t.
Proof.
  assert (G : forall d e, decimal_ok d /\ plain_int (de_int d) /\ de_exp d = None /\
           de_sign d = (if negative x then "-" else "") /\
           match de_frac d with None => p = 0%Z | Some f => (0 < p)%Z /\ Z.of_nat (String.length f) = p end /\
           decimal_value d = to_decimals p (real_of x) -> 
           decimal_ok e /\ plain_int (de_int e) /\ de_exp e = None /\
           de_sign e = (if negative x then "-" else "") /\
           match de_frac e with None => p = 0%Z | Some f => (0 < p)%Z /\ Z.of_nat (String.length f) = p end /\
           decimal_value e = to_decimals p (real_of x) -> decimal_text d = decimal_text e).
  { intros d e ((_ & Di & Df & _) & Pd & Xd & Sd & Fd & Vd) ((_ & Ei & Ef & _) & Pe & Xe & Se & Fe & Ve).
    assert (Ld : len (default "" (de_frac d)) = p) by (destruct (de_frac d); cbn [default String.length]; unfold Datatypes.id; lia).
    assert (Le : len (default "" (de_frac e)) = p) by (destruct (de_frac e); cbn [default String.length]; unfold Datatypes.id; lia).
    rewrite <- Ve in Vd. unfold decimal_value, decimal_exp, minus_sign in Vd. rewrite Xd, Xe, Sd, Se, Ld, Le in Vd.
    apply Rmult_eq_reg_r in Vd; [|apply Rgt_not_eq, powerRZ_10_pos].
    apply Rmult_eq_reg_l in Vd; [|destruct (bool_decide _); lra]. apply eq_IZR in Vd. rewrite !value_app, Ld, Le in Vd.
    pose proof (value_bounds _ Df) as B1. pose proof (value_bounds _ Ef) as B2. rewrite Ld in B1. rewrite Le in B2.
    destruct (split_inj _ _ _ _ _ Vd B1 B2) as [V1 V2].
    assert (E1 : de_int d = de_int e) by (apply digits_inj; try done; by apply plain_length).
    assert (E2 : de_frac d = de_frac e).
    { assert (E : default "" (de_frac d) = default "" (de_frac e)) by (apply digits_inj; try done; lia).
      destruct (de_frac d), (de_frac e); cbn in E |- *; [by rewrite E|lia|lia|done]. }
    unfold decimal_text. by rewrite Xd, Xe, Sd, Se, E1, E2. }
  destruct x; cbn [shows]; try congruence; intros (d1 & -> & Hd) (d2 & -> & He); by apply G.
Qed.

(** The formats. *)
Lemma read_prec_digits ds : forall acc, digits ds -> 0 <= acc -> acc * 10 ^ len ds + value ds <= 1000000 ->
  read_prec acc (ds +:+ "f") = Some (acc * 10 ^ len ds + value ds).
Proof.
  induction ds as [|c r IH]; intros acc Hd Ha HB.
  - rewrite app_nil. cbn [read_prec String.length value] in *. change (digit "f") with (@None Z). cbv iota.
    change (10 ^ Z.of_nat 0) with 1 in *. rewrite Z.mul_1_r, Z.add_0_r in *. by rewrite decide_True.
  - rewrite app_cons. cbn [read_prec digits] in *. destruct Hd as [Hc Hr]. rewrite (digit_of c Hc).
    assert (E : acc * 10 ^ len (String c r) + value (String c r) = (10 * acc + (Z.of_nat (nat_of_ascii c) - 48)) * 10 ^ len r + value r).
    { cbn [String.length value]. rewrite Nat2Z.inj_succ, Z.pow_succ_r by lia. ring. }
    rewrite E in *. apply IH; [done|lia|done].
Qed.
Lemma read_prec_inv s : forall acc p, read_prec acc s = Some p -> 0 <= acc ->
  exists ds, s = ds +:+ "f" /\ digits ds /\ p = acc * 10 ^ len ds + value ds /\ p <= 1000000.
Proof.
  induction s as [|c r IH]; intros acc p H Ha; [done|]. cbn [read_prec] in H. destruct (digit c) as [d|] eqn:E.
  - apply digit_some in E as [Hc ->]. apply IH in H as (ds & -> & Hd & -> & Hp); [|lia].
    exists (String c ds). split; [by rewrite app_cons|]. split; [by split|]. split; [|done].
    cbn [String.length value]. rewrite Nat2Z.inj_succ, Z.pow_succ_r by lia. ring.
  - case_decide as HD; [|done]. destruct HD as [-> HD]. injection H as <-. exists "". split; [done|]. split; [done|]. split; [|done].
    cbn [String.length value]. change (10 ^ len "") with 1. lia.
Qed.
Lemma float_prec_asks f p : f <> "" -> float_prec f = Some p <-> asks f p.
Proof.
  intros Hf. unfold asks, float_prec. split.
  - intros H. right. destruct f as [|c [|d r]]; [done|done|]. case_decide as E1; [|done]. subst c. case_decide as E2.
    { left. injection H as <-. rewrite E2. done. }
    right. case_decide as E3; [|done]. subst d. apply read_prec_inv in H as (ds & -> & Hd & -> & Hp); [|lia].
    exists ds. rewrite !app_cons, app_nil. split_and!; try done; lia.
  - intros [[-> _]|[[-> ->]|(ds & -> & Hd & <- & Hp)]]; [done|done|]. rewrite !app_cons, app_nil.
    rewrite decide_True by done. rewrite decide_False by done. rewrite decide_True by done.
    rewrite read_prec_digits; [f_equal; lia|done|lia|lia].
Qed.
Lemma asks_nonneg f p : asks f p -> 0 <= p.
Proof. intros [[_ ->]|[[_ ->]|(ds & _ & Hd & <- & _)]]; [done|done|]. by apply value_bounds. Qed.
