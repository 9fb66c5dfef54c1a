(** The texts of FormatFloat are decimal numbers. *)
From Coq Require Import Reals Lra.
From Verif Require Import M_Strconv.
From Coq Require Import Strings.Ascii.
From stdpp Require Import strings pretty list.
From Verif Require Import Spec_Json Spec_Strconv P_Csv4 P_Strconv P_Strconv2.
Local Open Scope Z_scope.
Notation len s := (Z.of_nat (String.length s)) (only parsing).

Lemma substring_all s : substring 0 (String.length s) s = s.
Proof. induction s as [|c s IH]; [done|]. cbn [String.length substring]. by rewrite IH. Qed.
Lemma substring_cut s : forall a, (a <= String.length s)%nat ->
  substring 0 a s +:+ substring a (String.length s - a) s = s /\
  String.length (substring 0 a s) = a /\ String.length (substring a (String.length s - a) s) = (String.length s - a)%nat.
Proof.
  induction s as [|c s IH]; intros a H; cbn [String.length] in *.
  - assert (a = O) as -> by lia. done.
  - destruct a as [|a].
    + cbn [substring]. rewrite app_nil. change (S (String.length s) - 0)%nat with (S (String.length s)). cbn [substring].
      rewrite substring_all. done.
    + destruct (IH a ltac:(lia)) as (E1 & E2 & E3). cbn [substring]. rewrite app_cons.
      change (S (String.length s) - S a)%nat with (String.length s - a)%nat. rewrite E1. cbn [String.length]. by rewrite E2, E3.
Qed.

Lemma dec_shift D k n : 0 <= n -> dec (D * 10 ^ n) k = dec D (k + n).
Proof.
  intros Hn. unfold dec. rewrite mult_IZR, (powerRZ_add 10 k n) by lra.
  assert (E : IZR (10 ^ n) = powerRZ 10 n).
  { destruct n as [|p|p]; [done| |lia]. rewrite <- Pos2Z.inj_pow. apply pow_pos_IZR. }
  rewrite E. ring.
Qed.
(** The decimal [d] has the value (-1)^s * D * 10^k. *)
Definition denotes (d : decimal) (s : bool) (D k : Z) : Prop :=
  decimal_ok d /\ minus_sign d = s /\ 0 < value (de_int d +:+ default "" (de_frac d)) /\
  dec (value (de_int d +:+ default "" (de_frac d))) (decimal_exp d - len (default "" (de_frac d))) = dec D k.
Lemma sign_text_ok s : sign_ok (sign_text s) /\ bool_decide (sign_text s = "-") = s.
Proof. destruct s; (split; [unfold sign_ok, sign_text; auto|done]). Qed.
Lemma pretty_ds D : 0 < D -> digits (pretty (Z.to_N D)) /\ value (pretty (Z.to_N D)) = D /\ String.length (pretty (Z.to_N D)) = ndigits D.
Proof. intros HD. destruct (pretty_digits (Z.to_N D)) as [H1 H2]. repeat split; [done|]. rewrite H2. lia. Qed.

(** The digits before and after the point. *)
Definition fixed_parts (p : Z * Z) : string * option string :=
  let ds := pretty (Z.to_N p.1) in
  let n := String.length ds in
  match p.2 with
  | Zneg f =>
      let f := Pos.to_nat f in
      if Nat.ltb f n then (substring 0 (n - f) ds, Some (substring (n - f) f ds))
      else ("0", Some (zeros (f - n) +:+ ds))
  | k => (ds +:+ zeros (Z.to_nat k), None)
  end.
Definition fixed_decimal (s : bool) (p : Z * Z) : decimal := Decimal (sign_text s) (fixed_parts p).1 (fixed_parts p).2 None.
Lemma fixed_decimal_text s p : decimal_text (fixed_decimal s p) = sign_text s +:+ fixed_text p.
Proof.
  unfold decimal_text, fixed_decimal. cbn [de_sign de_int de_frac de_exp]. f_equal. unfold fixed_parts, fixed_text.
  destruct p.2 as [|f|f]; cbn [fst snd]; rewrite ?app_nil_r'; try done. case_match; cbn [fst snd]; rewrite ?app_nil_r'; [done|].
  by rewrite !app_cons, !app_nil.
Qed.
Lemma fixed_decimal_denotes s p : 0 < p.1 -> denotes (fixed_decimal s p) s p.1 p.2.
Proof.
  intros HD. destruct (pretty_ds _ HD) as (P1 & P2 & P3). destruct (sign_text_ok s) as [S1 S2].
  destruct (ndigits_spec _ HD) as [N1 _].
  unfold denotes, fixed_decimal, decimal_ok, minus_sign, decimal_exp. cbn [de_sign de_int de_frac de_exp]. unfold fixed_parts.
  set (ds := pretty (Z.to_N p.1)) in *.
  assert (Hne : ds <> "") by (intros E; rewrite E in P3; cbn [String.length] in P3; lia).
  assert (Hk : forall k, 0 <= k -> let q := (ds +:+ zeros (Z.to_nat k), None : option string) in
    (sign_ok (sign_text s) /\ digits q.1 /\ digits (default "" q.2) /\ (q.1 <> "" \/ default "" q.2 <> "") /\ True) /\
    bool_decide (sign_text s = "-") = s /\ 0 < value (q.1 +:+ default "" q.2) /\
    dec (value (q.1 +:+ default "" q.2)) (0 - len (default "" q.2)) = dec p.1 k).
  { intros k Hk. cbn [fst snd default String.length]. destruct (zeros_digits (Z.to_nat k)) as (Z1 & Z2 & Z3).
    assert (EV : value ((ds +:+ zeros (Z.to_nat k)) +:+ "") = p.1 * 10 ^ k).
    { rewrite app_nil_r', value_app, Z2, Z3, P2, Z2Nat.id by lia. lia. }
    split_and!; try done.
    - apply digits_app. done.
    - left. destruct ds; [done|]. by rewrite app_cons.
    - rewrite EV. pose proof (Z.pow_pos_nonneg 10 k). nia.
    - rewrite EV, dec_shift by lia. done. }
  destruct p.2 as [|f|f]; [by apply (Hk 0)|by apply (Hk (Zpos f))|]. clear Hk.
  rewrite P3. destruct (Nat.ltb (Pos.to_nat f) (ndigits p.1)) eqn:EL; cbn [fst snd default]; unfold Datatypes.id.
  - apply Nat.ltb_lt in EL. destruct (substring_cut ds (ndigits p.1 - Pos.to_nat f) ltac:(lia)) as (E1 & E2 & E3).
    rewrite P3 in E1, E3. replace (ndigits p.1 - (ndigits p.1 - Pos.to_nat f))%nat with (Pos.to_nat f) in E1, E3 by lia.
    rewrite <- E1 in P1. apply digits_app in P1 as [Pa Pb]. split_and!; try done.
    + left. intros E. rewrite E in E2. cbn [String.length] in E2. lia.
    + rewrite E1, P2. done.
    + rewrite E1, P2, E3. f_equal. lia.
  - apply Nat.ltb_ge in EL. destruct (zeros_digits (Pos.to_nat f - ndigits p.1)) as (Z1 & Z2 & Z3).
    assert (EV : value ("0" +:+ zeros (Pos.to_nat f - ndigits p.1) +:+ ds) = p.1).
    { rewrite !value_app, Z2, P2. change (value "0") with 0. lia. }
    split_and!; try done.
    + by vm_compute; repeat split; repeat constructor.
    + apply digits_app. done.
    + by left.
    + by rewrite EV.
    + rewrite EV, length_app, Z3, P3. f_equal. lia.
Qed.

(** With an exponent. *)
Definition exp_parts (p : Z * Z) : string * option string * (ascii * string * string) :=
  let ds := pretty (Z.to_N p.1) in
  let n := String.length ds in
  let x := p.2 + Z.of_nat n - 1 in
  (substring 0 1 ds, if decide (n = 1%nat) then None else Some (substring 1 (n - 1) ds),
   if decide (x < 0) then ("e"%char, "-", pretty (Z.to_N (- x)))
   else ("e"%char, "+", (if decide (x < 10) then "0" else "") +:+ pretty (Z.to_N x))).
Definition exp_decimal (s : bool) (p : Z * Z) : decimal :=
  Decimal (sign_text s) (exp_parts p).1.1 (exp_parts p).1.2 (Some (exp_parts p).2).
Lemma exp_decimal_text s p : decimal_text (exp_decimal s p) = sign_text s +:+ exp_text p.
Proof.
  unfold decimal_text, exp_decimal. cbn [de_sign de_int de_frac de_exp]. unfold exp_parts, exp_text. cbn [fst snd].
  f_equal. f_equal. destruct (decide (String.length _ = 1%nat)); rewrite ?app_nil; [|f_equal]; destruct (decide (_ < 0)); reflexivity.
Qed.
Lemma exp_decimal_denotes s p : 0 < p.1 ->
  denotes (exp_decimal s p) s p.1 p.2 /\ decimal_exp (exp_decimal s p) = p.2 + Z.of_nat (ndigits p.1) - 1.
Proof.
  intros HD. destruct (pretty_ds _ HD) as (P1 & P2 & P3). destruct (sign_text_ok s) as [S1 S2].
  destruct (ndigits_spec _ HD) as [N1 _].
  unfold denotes, exp_decimal, decimal_ok, minus_sign, decimal_exp. cbn [de_sign de_int de_frac de_exp]. unfold exp_parts.
  rewrite P3. cbn [fst snd]. set (ds := pretty (Z.to_N p.1)) in *. set (x := p.2 + Z.of_nat (ndigits p.1) - 1) in *.
  destruct (substring_cut ds 1 ltac:(lia)) as (E1 & E2 & E3). rewrite P3 in E1, E3.
  assert (EX : let '(c, sg, e) := (if decide (x < 0) then ("e"%char, "-", pretty (Z.to_N (- x)))
     else ("e"%char, "+", (if decide (x < 10) then "0" else "") +:+ pretty (Z.to_N x))) in
    ((c = "e"%char \/ c = "E"%char) /\ sign_ok sg /\ digits e /\ e <> "") /\ (if decide (sg = "-") then - value e else value e) = x).
  { assert (HN : forall n : N, digits (pretty n) /\ pretty n <> "").
    { intros n. destruct (pretty_digits n) as [A B]. split; [done|]. intros E. rewrite E in B. cbn [value] in B.
      assert (n = 0%N) as -> by lia. done. }
    destruct (decide (x < 0)) as [Hx|Hx].
    - destruct (HN (Z.to_N (- x))) as [A B]. destruct (pretty_digits (Z.to_N (- x))) as [_ C]. rewrite (decide_True (P := "-" = "-")) by done.
      split; [|rewrite C; lia]. split_and!; [by left|unfold sign_ok; auto|done|done].
    - destruct (HN (Z.to_N x)) as [A B]. destruct (pretty_digits (Z.to_N x)) as [_ C]. rewrite (decide_False (P := "+" = "-")) by done.
      destruct (decide (x < 10)).
      + split; [|rewrite value_app, C; change (value "0") with 0; lia]. split_and!; [by left|unfold sign_ok; auto| |destruct (pretty _); done].
        apply digits_app. split; [|done]. by vm_compute; repeat split; repeat constructor.
      + rewrite app_nil. split; [|rewrite C; lia]. split_and!; [by left|unfold sign_ok; auto|done|done]. }
  destruct (if decide (x < 0) then _ else _) as [[c sg] e]. destruct EX as [(X1 & X2 & X3 & X4) EX2]. split; [|done]. rewrite EX2.
  assert (P1' := P1). rewrite <- E1 in P1'. apply digits_app in P1' as [Pa Pb].
  destruct (decide (ndigits p.1 = 1%nat)) as [Hn|Hn]; cbn [default]; unfold Datatypes.id.
  - assert (E : substring 0 1 ds = ds).
    { rewrite Hn in E3. rewrite Hn in E1. destruct (substring 1 (1 - 1) ds); [|done]. by rewrite app_nil_r' in E1. }
    rewrite E, app_nil_r', P2. split_and!; try done.
    + left. intros E'. rewrite E' in P3. cbn [String.length] in P3. lia.
    + cbn [String.length]. rewrite Z.sub_0_r. unfold x. rewrite Hn. f_equal. lia.
  - rewrite E1, P2, E3. split_and!; try done.
    + left. intros E'. rewrite E' in E2. done.
    + unfold x. f_equal. lia.
Qed.

(** Reading such a text. *)
Lemma parse_denotes d s D k : denotes d s D k -> 0 < D -> Z.abs (decimal_exp d) < 100000 ->
  parse_f64 (decimal_text d) = in_range (scaled 10 s D k).
Proof.
  intros (H1 & H2 & H3 & H4) HD He. rewrite (parse_decimal d H1 He), H2. f_equal. by apply scaled_dec.
Qed.
