(** Texts of numbers and what ParseFloat makes of them. *)
From Verif Require Import M_Strconv.
From Verif Require Import Spec_Json Spec_Strconv P_Csv4.
From Coq Require Import Strings.Ascii.
Local Open Scope Z_scope.

Local Notation len s := (Z.of_nat (String.length s)).

(** ** Digits *)
Lemma digit_is c : digit c = if decide (48 <= nat_of_ascii c <= 57)%nat then Some (Z.of_nat (nat_of_ascii c) - 48) else None.
Proof. destruct c as [[] [] [] [] [] [] [] []]; reflexivity. Qed.
Lemma digit_of c : (48 <= nat_of_ascii c <= 57)%nat -> digit c = Some (Z.of_nat (nat_of_ascii c) - 48).
Proof. intros H. rewrite digit_is. by rewrite decide_True. Qed.
Lemma digit_some c d : digit c = Some d -> (48 <= nat_of_ascii c <= 57)%nat /\ d = Z.of_nat (nat_of_ascii c) - 48.
Proof. rewrite digit_is. destruct (decide _); [|done]. by intros [= <-]. Qed.
Lemma app_cons c s t : String c s +:+ t = String c (s +:+ t).
Proof. reflexivity. Qed.
Lemma app_nil t : "" +:+ t = t.
Proof. reflexivity. Qed.
Lemma length_app s t : len (s +:+ t) = len s + len t.
Proof. induction s as [|c s IH]; [done|]. rewrite app_cons. cbn [String.length]. lia. Qed.
Lemma app_nil_r' s : s +:+ "" = s.
Proof. induction s as [|c s IH]; [done|]. by rewrite app_cons, IH. Qed.
Lemma app_assoc' s t u : (s +:+ t) +:+ u = s +:+ (t +:+ u).
Proof. induction s as [|c s IH]; [done|]. by rewrite !app_cons, IH. Qed.
Lemma digits_app s t : digits (s +:+ t) <-> digits s /\ digits t.
Proof. induction s as [|c s IH]; [rewrite app_nil; cbn [digits]; tauto|]. rewrite app_cons. cbn [digits]. rewrite IH. tauto. Qed.
Lemma value_app s t : value (s +:+ t) = value s * 10 ^ len t + value t.
Proof.
  induction s as [|c s IH]; [rewrite app_nil; cbn [value]; lia|]. rewrite app_cons. cbn [value]. rewrite IH, length_app, Z.pow_add_r by lia. lia.
Qed.
Lemma value_bounds s : digits s -> 0 <= value s < 10 ^ len s.
Proof.
  induction s as [|c s IH]; cbn [digits value String.length]; [lia|]. intros [H1 H2]. specialize (IH H2).
  rewrite Nat2Z.inj_succ, Z.pow_succ_r by lia. nia.
Qed.
Lemma parse_digits_value s : forall acc, digits s -> parse_digits acc s = Some (acc * 10 ^ len s + value s).
Proof.
  induction s as [|c s IH]; intros acc; cbn [digits parse_digits value String.length]; [intros _; f_equal; lia|].
  intros [H1 H2]. rewrite (digit_of c H1), (IH _ H2). rewrite Nat2Z.inj_succ, Z.pow_succ_r by lia. f_equal. lia.
Qed.
Lemma parse_digits_digits s : forall acc z, parse_digits acc s = Some z -> digits s.
Proof.
  induction s as [|c s IH]; intros acc z; cbn [digits parse_digits]; [done|].
  destruct (digit c) as [d|] eqn:E; [|done]. intros H. split; [by apply digit_some in E as [? _]|by eapply IH].
Qed.
Lemma pretty_digits n : digits (pretty n) /\ value (pretty n) = Z.of_N n.
Proof.
  pose proof (parse_pretty_N n) as H. unfold parse_nat in H. destruct (decide _); [done|].
  pose proof (parse_digits_digits _ _ _ H) as HD. split; [done|]. rewrite (parse_digits_value _ _ HD) in H. injection H as H. lia.
Qed.
Lemma zeros_digits n : digits (zeros n) /\ value (zeros n) = 0 /\ String.length (zeros n) = n.
Proof.
  induction n as [|n IH]; [done|]. change (zeros (S n)) with (String "0" (zeros n)). cbn [digits value String.length].
  destruct IH as (I1 & I2 & I3). rewrite I2, I3. change (nat_of_ascii "0") with 48%nat. split; [split; [lia|done]|split; [lia|done]].
Qed.
(** Number of digits. *)
Lemma pretty_go_length x : forall s, (0 < x)%N -> exists n, String.length (pretty_N_go x s) = (S n + String.length s)%nat /\
  10 ^ Z.of_nat n <= Z.of_N x < 10 ^ Z.of_nat (S n).
Proof.
  induction (N.lt_wf_0 x) as [x _ IH]; intros s Hx. rewrite pretty_N_go_step by lia.
  pose proof (N.div_mod x 10 ltac:(lia)) as HD. pose proof (N.mod_lt x 10 ltac:(lia)) as HM.
  destruct (decide (x / 10 = 0)%N) as [E|E].
  - rewrite E, pretty_N_go_0. exists 0%nat. cbn [String.length]. split; [done|]. change (10 ^ Z.of_nat 0) with 1. change (10 ^ Z.of_nat 1) with 10. lia.
  - destruct (IH (x / 10)%N ltac:(apply N.div_lt; lia) (String (pretty_N_char (x `mod` 10)) s) ltac:(lia)) as (n & H1 & H2 & H3).
    exists (S n). rewrite H1. cbn [String.length]. split; [lia|].
    rewrite Nat2Z.inj_succ, Z.pow_succ_r in H3 by lia. rewrite !Nat2Z.inj_succ, !Z.pow_succ_r by lia. clear -HD HM H2 H3.
    generalize dependent (x / 10)%N. generalize dependent (x mod 10)%N. intros. lia.
Qed.
Lemma ndigits_spec D : 0 < D -> (1 <= ndigits D)%nat /\ 10 ^ (Z.of_nat (ndigits D) - 1) <= D < 10 ^ Z.of_nat (ndigits D).
Proof.
  intros HD. unfold ndigits, pretty, pretty_N. rewrite decide_False by lia.
  destruct (pretty_go_length (Z.to_N D) "" ltac:(lia)) as (n & H1 & H2). rewrite H1. cbn [String.length].
  rewrite Nat.add_0_r. split; [lia|]. rewrite Z2N.id in H2 by lia. replace (Z.of_nat (S n) - 1) with (Z.of_nat n) by lia. done.
Qed.

(** ** Reading *)
Lemma fdigit_dec c : fdigit false c = digit c.
Proof. unfold fdigit. by destruct (digit c). Qed.
Lemma digit_not c d : digit c = Some d -> c <> "_"%char /\ c <> "."%char /\ c <> "+"%char /\ c <> "-"%char /\ lower c <> "x"%char.
Proof. intros H. repeat split; intros E; destruct c as [[] [] [] [] [] [] [] []]; try discriminate. Qed.
Lemma read_digits s rest : forall v f dot any us, digits s ->
  read_mant false (Mant v f dot any us) (s +:+ rest) =
  read_mant false (Mant (v * 10 ^ len s + value s) (if dot then f + len s else f) dot (any || bool_decide (s <> "")) us) rest.
Proof.
  induction s as [|c s IH]; intros v f dot any us; [rewrite app_nil|rewrite app_cons]; cbn [digits value String.length].
  - intros _. rewrite bool_decide_eq_false_2, orb_false_r by tauto. f_equal. f_equal; [lia|]. destruct dot; lia.
  - intros [H1 H2]. pose proof (digit_of c H1) as Hd. destruct (digit_not _ _ Hd) as (N1 & N2 & _). cbn [read_mant].
    rewrite decide_False, decide_False by done. rewrite fdigit_dec, Hd, (IH _ _ _ _ _ H2). f_equal.
    rewrite (bool_decide_eq_true_2 (String c s <> "")), orb_true_r by done.
    rewrite Nat2Z.inj_succ, Z.pow_succ_r by lia. f_equal; [lia|]. destruct dot; lia.
Qed.
Lemma read_exp_digits s : forall e, digits s -> 0 <= e -> e * 10 ^ len s + value s < 100000 ->
  read_exp e false s = Some (e * 10 ^ len s + value s, false).
Proof.
  induction s as [|c s IH]; intros e; cbn [digits value String.length read_exp].
  - intros _ _ _. do 2 f_equal. lia.
  - intros [H1 H2] He. rewrite Nat2Z.inj_succ, Z.pow_succ_r by lia. intros H.
    pose proof (digit_of c H1) as Hd. destruct (digit_not _ _ Hd) as (N1 & _). rewrite decide_False by done. rewrite Hd.
    pose proof (value_bounds s H2) as HV. pose proof (Z.pow_pos_nonneg 10 (len s)).
    rewrite decide_True by nia. rewrite (IH _ H2); [do 2 f_equal; lia|lia|lia].
Qed.
Lemma digits_char s c t : digits s -> s = String c t -> exists d, digit c = Some d.
Proof. intros H ->. destruct H as [H _]. rewrite (digit_of c H). by eexists. Qed.

(** What follows the sign starts with a digit or a point. *)
Definition starts_num (s : string) : Prop := exists c r, s = String c r /\ (is_Some (digit c) \/ c = "."%char).
Lemma strip_sign_num sg t : sign_ok sg -> starts_num t -> strip_sign (sg +:+ t) = (bool_decide (sg = "-"), t).
Proof.
  intros [-> | [-> | ->]] (c & r & -> & Hc); [|done|done]. rewrite app_nil. cbn [strip_sign].
  rewrite !decide_False; [done| |]; intros ->; destruct Hc as [[d Hd]|]; done.
Qed.
Lemma special_num sg t : sign_ok sg -> starts_num t -> special (sg +:+ t) = None.
Proof.
  intros Hs (c & r & -> & Hc).
  assert (Hl : lower c <> "i"%char /\ lower c <> "n"%char /\ lower c <> "+"%char /\ lower c <> "-"%char).
  { destruct Hc as [[d Hd]| ->]; [|done]. repeat split; intros E; destruct c as [[] [] [] [] [] [] [] []]; discriminate. }
  destruct Hl as (L1 & L2 & L3 & L4).
  assert (HN : forall x, x ∈ ["inf"; "+inf"; "infinity"; "+infinity"] \/ x ∈ ["-inf"; "-infinity"] \/ x = "nan" -> lowers (sg +:+ String c r) <> x).
  { intros x Hx E. rewrite <- E in Hx. destruct Hs as [-> | [-> | ->]]; rewrite ?app_cons, ?app_nil in Hx; cbn [lowers] in Hx;
      try change (lower "+") with "+"%char in Hx; try change (lower "-") with "-"%char in Hx;
      rewrite !elem_of_cons, !elem_of_nil in Hx;
      repeat (destruct Hx as [Hx|Hx]); try done; injection Hx; intros; congruence. }
  unfold special. rewrite !decide_False; [done|..]; intros H; by eapply HN; [|reflexivity]; auto.
Qed.
Lemma strip_hex_num s : (forall c r, s = String "0" (String c r) -> lower c <> "x"%char) -> strip_hex s = (false, s).
Proof.
  intros H. destruct s as [|a [|c [|b r]]]; try done; unfold strip_hex;
    destruct a as [[] [] [] [] [] [] [] []]; try reflexivity.
  rewrite decide_False; [done|]. by eapply H.
Qed.

(** ** Decimal numbers *)
Definition tail_text (o : option (ascii * string * string)) : string :=
  match o with None => "" | Some (c, s, e) => String c (s +:+ e) end.
Definition tail_ok (o : option (ascii * string * string)) : Prop :=
  match o with None => True | Some (c, s, e) => (c = "e"%char \/ c = "E"%char) /\ sign_ok s /\ digits e /\ e <> "" end.
Lemma read_stop st o : tail_ok o -> read_mant false st (tail_text o) = Some (st, tail_text o).
Proof. destruct st, o as [[[c s] e]|]; cbn [tail_text tail_ok]; [|done]. intros [[-> | ->] _]; reflexivity. Qed.
Lemma starts_digits s : digits s -> s <> "" -> starts_num s.
Proof.
  intros H Hn. destruct s as [|c s]; [done|]. exists c, s. split; [done|]. left. destruct H as [H _]. rewrite (digit_of c H). by eexists.
Qed.
Lemma starts_app s t : starts_num s -> starts_num (s +:+ t).
Proof. intros (c & r & -> & H). by exists c, (r +:+ t). Qed.
Lemma exp_part_ok o (z := match o with None => 0 | Some (_, s, e) => if decide (s = "-") then - value e else value e end) :
  tail_ok o -> Z.abs z < 100000 -> exp_part false (tail_text o) = Some (z, false).
Proof.
  destruct o as [[[c s] e]|]; cbn [tail_text tail_ok]; [|done]. intros ([-> | ->] & Hs & He & Hn) Hz; subst z;
    cbn [exp_part]; change (lower "e") with "e"%char; change (lower "E") with "e"%char; (rewrite decide_True by done);
    (rewrite (strip_sign_num s e Hs (starts_digits e He Hn)));
    (assert (Hz' : 0 * 10 ^ len e + value e < 100000) by (destruct (decide (s = "-")); lia));
    pose proof (read_exp_digits e 0 He ltac:(lia) Hz') as HR; rewrite HR;
    (destruct e as [|d e]; [done|]; destruct (digits_char _ d e He eq_refl) as [v ->]);
    rewrite Z.mul_0_l, Z.add_0_l; (destruct (decide (s = "-")); [by rewrite bool_decide_eq_true_2|by rewrite bool_decide_eq_false_2]).
Qed.
Lemma parse_decimal_exp d z : decimal_ok d -> exp_part false (tail_text (de_exp d)) = Some (z, false) ->
  parse_f64 (decimal_text d) =
  in_range (scaled 10 (minus_sign d) (value (de_int d +:+ default "" (de_frac d))) (z - len (default "" (de_frac d)))).
Proof.
  destruct d as [sg ip fp o]. intros (H1 & H2 & H3 & H4 & H5) HX. unfold decimal_text, minus_sign. cbn [de_sign de_int de_frac de_exp] in *.
  change (match o with None => "" | Some (c, s, e) => String c (s +:+ e) end) with (tail_text o). fold (tail_ok o) in H5.
  set (body := ip +:+ match fp with Some f => "." +:+ f | None => "" end +:+ tail_text o).
  assert (HT : (ip +:+ match fp with Some f => "." +:+ f | None => "" end) +:+ tail_text o = body) by apply app_assoc'.
  assert (HB : starts_num body).
  { unfold body. destruct (decide (ip = "")) as [->|Hi].
    - rewrite app_nil. destruct fp as [f|]; [|by destruct H4]. exists "."%char, (f +:+ tail_text o). split; [by rewrite app_cons, app_nil|by right].
    - by apply starts_app, starts_digits. }
  unfold parse_f64. rewrite (special_num sg body H1 HB), (strip_sign_num sg body H1 HB).
  assert (HH : strip_hex body = (false, body)).
  { apply strip_hex_num. intros c r E.
    assert (Hc : is_Some (digit c) \/ c = "."%char \/ c = "e"%char \/ c = "E"%char).
    { unfold body in E. destruct ip as [|a [|b ip]].
      - rewrite app_nil in E. destruct fp as [f|]; [done|]. by destruct H4.
      - rewrite app_cons, app_nil in E. injection E as -> E. destruct fp as [f|].
        + injection E as <- _. auto.
        + rewrite app_nil in E. destruct o as [[[c' s] e]|]; [|done]. cbn [tail_text] in E. injection E as -> _.
          destruct H5 as [[-> | ->] _]; auto.
      - rewrite !app_cons in E. injection E as -> -> _. destruct H2 as (_ & H2 & _). rewrite (digit_of c H2). left. by eexists. }
    destruct Hc as [[v Hv]|[->|[->| ->]]]; [by apply digit_not in Hv as (_ & _ & _ & _ & ?)|done|done|done]. }
  rewrite HH.
  assert (HM : exists dot, read_mant false (Mant 0 0 false false false) body =
    Some (Mant (value (ip +:+ default "" fp)) (len (default "" fp)) dot true false, tail_text o)).
  { unfold body. rewrite (read_digits ip _ 0 0 false false false H2). destruct fp as [f|]; cbn [default] in *.
    - unfold id in *. rewrite app_cons, app_nil, app_cons. cbn [read_mant]. rewrite decide_False, decide_True by done.
      rewrite (read_digits f _ _ _ _ _ _ H3), (read_stop _ o H5). exists true. do 3 f_equal.
      + rewrite value_app. lia.
      + destruct H4 as [H4|H4]; [by rewrite (bool_decide_eq_true_2 (ip <> "")) by done|].
        rewrite (bool_decide_eq_true_2 (f <> "")) by done. apply orb_true_r.
    - rewrite app_nil, (read_stop _ o H5). exists false. do 3 f_equal.
      + rewrite app_nil_r'. lia.
      + destruct H4 as [H4|H4]; [|done]. by rewrite bool_decide_eq_true_2. }
  destruct HM as [dot HM]. rewrite HM, HX. reflexivity.
Qed.
Lemma parse_decimal d : decimal_ok d -> Z.abs (decimal_exp d) < 100000 ->
  parse_f64 (decimal_text d) =
  in_range (scaled 10 (minus_sign d) (value (de_int d +:+ default "" (de_frac d))) (decimal_exp d - len (default "" (de_frac d)))).
Proof. intros Hd He. apply parse_decimal_exp; [done|]. apply exp_part_ok; [apply Hd|exact He]. Qed.
