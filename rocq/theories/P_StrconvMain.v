(** C91 Floats in text. *)
From Coq Require Import Reals Psatz.
From Flocq Require Import Core BinarySingleNaN.
From Verif Require Import M_Strconv.
From Verif Require Import P_Exec.
From stdpp Require Import strings pretty list.
From Verif Require Import P_CsvMain Spec_Csv P_Float P_FloatEx Spec_Json Spec_Strconv P_Csv4 P_Strconv P_Strconv2 P_Strconv3 P_Strconv4 P_Strconv5 P_Strconv6 P_Strconv7.
From Coq Require Import Strings.Ascii.
Local Open Scope Z_scope.

Lemma C91_round_trip_main : forall x, is_f64 x -> parse_f64 (fmt_f64 x) = Some x /\ parse_f64 (fmt_json x) = Some x.
Proof. intros x Hx. split; [by apply fmt_roundtrip|by apply json_roundtrip]. Qed.
Lemma C91_parse_main : forall d, decimal_ok d -> Z.abs (decimal_exp d) < 100000 ->
  rounded (minus_sign d) (decimal_value d) (parse_f64 (decimal_text d)).
Proof. exact parse_rounded. Qed.
Lemma C91_syntax_main : forall s x, number_chars s -> parse_f64 s = Some x -> exists d, decimal_ok d /\ s = decimal_text d.
Proof. exact parse_syntax. Qed.

Lemma short_for_iff s m e D k n : is_f64 (S754_finite s m e) ->
  short_for (S754_finite s m e) D k n <-> (0 < D /\ (ndigits D <= n)%nat) /\ scaled 10 s D k = S754_finite s m e.
Proof.
  intros Hx. unfold short_for. cbn [negative]. change (if s then -1 else 1)%R with (sgn s). rewrite Rmult_assoc. split.
  - intros [[HD Hn] HR]. split; [split; [done|by apply ndigits_le]|]. apply scaled_finite_spec; done.
  - intros [[HD Hn] HS]. split.
    + split; [done|]. destruct (ndigits_spec D HD) as (_ & _ & H). eapply Z.lt_le_trans; [exact H|]. apply Z.pow_le_mono_r; lia.
    + by apply scaled_finite_spec in HS.
Qed.
Lemma denotes_value d s D k : denotes d s D k -> decimal_value d = (sgn s * dec D k)%R.
Proof. intros (_ & H2 & _ & H4). rewrite <- H4, <- H2. unfold decimal_value, dec. rewrite sgn_minus. ring. Qed.
Lemma best_shortest s m e : is_f64 (S754_finite s m e) ->
  best_for (S754_finite s m e) (sgn s * dec (shortest s m e).1 (shortest s m e).2) (shortest s m e).1 (shortest s m e).2.
Proof.
  intros Hx. destruct (shortest_ok s m e Hx) as [HS HP]. pose proof (shortest_17 s m e Hx) as H17. split; [|split].
  - cbn [negative]. unfold dec, sgn. ring.
  - apply short_for_iff; [done|]. done.
  - intros D' k' n H. apply short_for_iff in H as [[HD Hn] HS']; [|done].
    destruct (shortest_minimal s m e Hx D' k' HD HS') as [M1 M2]. split.
    + apply short_for_iff; [done|]. split; [|done]. split; [done|lia].
    + intros Hl. cbn [negative]. change (if s then -1 else 1)%R with (sgn s).
      replace (sgn s * IZR D' * powerRZ 10 k')%R with (sgn s * dec D' k')%R by (unfold dec; ring).
      change (real_of (S754_finite s m e)) with (f64_R (S754_finite s m e)). rewrite f64_R_finite, <- !Rmult_minus_distr_l, !sgn_abs.
      apply M2. destruct n as [|n].
      * exfalso. destruct (ndigits_spec D' HD) as [? _]. lia.
      * replace (Z.of_nat (S n) - 1) with (Z.of_nat n) in Hl by lia. pose proof (ndigits_ge _ n HP Hl). lia.
Qed.
Lemma C91_written_main : forall x, is_f64 x -> finite x -> real_of x <> 0%R ->
  exists d D k, decimal_text d = fmt_f64 x /\ decimal_ok d /\ canonical d /\ de_exp d = None /\ minus_sign d = negative x /\
    best_for x (decimal_value d) D k.
Proof.
  intros x Hx [Hn Hi] H0. destruct x as [s|s| |s m e]; [by destruct H0|by destruct (Hi s)|done|].
  destruct (shortest_ok s m e Hx) as [HS HP]. pose proof (fixed_decimal_denotes s _ HP) as HD.
  exists (fixed_decimal s (shortest s m e)), (shortest s m e).1, (shortest s m e).2. split; [apply fixed_decimal_text|]. split; [apply HD|].
  split; [apply fixed_canonical; [done|by apply shortest_end]|]. split; [done|]. split; [apply HD|].
  rewrite (denotes_value _ _ _ _ HD). by apply best_shortest.
Qed.
Lemma f64_abs_R m e : is_f64 (S754_finite false m e) -> f64_R (S754_finite false m e) = (IZR (Zpos m) * bpow radix2 e)%R.
Proof. intros _. rewrite f64_R_finite. unfold sgn. ring. Qed.
Lemma pow10_IZR n : 0 <= n -> powerRZ 10 n = IZR (10 ^ n).
Proof. intros Hn. pose proof (dec_shift 1 0 n Hn) as H. rewrite dec_0, Z.mul_1_l, Z.add_0_l in H. rewrite H. unfold dec. ring. Qed.
Lemma C91_json_main : forall x, is_f64 x -> finite x -> real_of x <> 0%R ->
  exists d D k, decimal_text d = fmt_json x /\ decimal_ok d /\ canonical d /\ minus_sign d = negative x /\
    best_for x (decimal_value d) D k /\
    (de_exp d = None <-> (round_even (powerRZ 10 (-6)) <= Rabs (real_of x) < powerRZ 10 21)%R) /\
    (de_exp d <> None -> String.length (de_int d) = 1%nat).
Proof.
  intros x Hx [Hn Hi] H0. destruct x as [s|s| |s m e]; [by destruct H0|by destruct (Hi s)|done|].
  destruct (shortest_ok s m e Hx) as [HS HP].
  assert (Ha : is_f64 (S754_finite false m e)) by exact Hx.
  destruct (scaled_spec 10 false 1 (-6) eq_refl) as (V1 & F1 & _). destruct (scaled_spec 10 false 1 21 eq_refl) as (V2 & F2 & _).
  change (sgn false) with 1%R in F1, F2. rewrite !Rmult_1_l in F1, F2.
  assert (E21 : rnd64 (powerRZ 10 21) = powerRZ 10 21).
  { rewrite (pow10_IZR 21) by lia.
    apply rnd_F, generic_format_FLT. exists (Float radix2 (5 ^ 21) 21); [|by vm_compute|done].
    unfold F2R. cbn [Fnum Fexp]. change (bpow radix2 21) with (IZR (2 ^ 21)). by rewrite <- mult_IZR. }
  assert (HP6 : (0 < powerRZ 10 (-6))%R) by apply powerRZ_10_pos. assert (HP21 : (0 < powerRZ 10 21)%R) by apply powerRZ_10_pos.
  assert (B1024 : (powerRZ 10 21 < bpow radix2 1024)%R).
  { rewrite (pow10_IZR 21) by lia.
    apply Rlt_trans with (IZR (2 ^ 100)); [by apply IZR_lt|]. change (IZR (2 ^ 100)) with (bpow radix2 100). apply bpow_lt. lia. }
  assert (B6 : (powerRZ 10 (-6) <= powerRZ 10 21)%R).
  { pose proof (dec_le (-6) 27 1 (10 ^ 27)) as H. replace (powerRZ 10 21) with (dec 1 21) by (unfold dec; ring).
    replace (powerRZ 10 (-6)) with (dec 1 (-6)) by (unfold dec; ring). replace 21 with (-6 + 27) by lia. apply dec_ge; lia. }
  assert (P6 : (0 <= rnd64 (powerRZ 10 (-6)))%R).
  { assert (E0 : rnd64 0 = 0%R) by apply (round_0 radix2 _ _). rewrite <- E0. apply rnd_mono. lra. }
  destruct F1 as (F1 & F1' & _).
  { rewrite Rabs_right by lra. apply rnd_mono in B6. rewrite E21 in B6. lra. }
  destruct F2 as (F2 & F2' & _); [rewrite E21, Rabs_right by lra; done|]. rewrite E21 in F2.
  set (t6 := scaled 10 false 1 (-6)) in *. set (t21 := scaled 10 false 1 21) in *.
  pose proof (f64_lt_R _ _ Ha V1 eq_refl F1') as L1. pose proof (f64_le_R _ _ V2 Ha F2' eq_refl) as L2.
  assert (HR : Rabs (real_of (S754_finite s m e)) = f64_R (S754_finite false m e)).
  { change (real_of (S754_finite s m e)) with (f64_R (S754_finite s m e)). rewrite !f64_R_finite, sgn_abs. unfold sgn at 1. rewrite Rmult_1_l.
    apply Rabs_right. destruct (f64_F s m e Hx). lra. }
  rewrite HR, <- rnd64_even, <- F1, <- F2.
  unfold fmt_json. fold t6 t21. clearbody t6 t21.
  destruct (f64_lt (S754_finite false m e) t6 || f64_le t21 (S754_finite false m e)) eqn:EB.
  - destruct (exp_decimal_denotes s _ HP) as [HD _].
    exists (exp_decimal s (shortest s m e)), (shortest s m e).1, (shortest s m e).2. split; [apply exp_decimal_text|]. split; [apply HD|].
    split; [apply exp_canonical; [done|by apply shortest_end]|]. split; [apply HD|].
    split; [rewrite (denotes_value _ _ _ _ HD); by apply best_shortest|]. split.
    + split; [done|]. intros [H1 H2]. exfalso. apply orb_true_iff in EB as [EB|EB].
      * rewrite L1 in EB. by destruct (Rlt_bool_spec (f64_R (S754_finite false m e)) (f64_R t6)); [lra|].
      * rewrite L2 in EB. by destruct (Rle_bool_spec (f64_R t21) (f64_R (S754_finite false m e))); [lra|].
    + intros _. unfold exp_decimal, exp_parts. cbn [de_int fst snd]. destruct (pretty_head _ HP) as (c & r & HH & _). rewrite HH. clear. destruct r; reflexivity.
  - pose proof (fixed_decimal_denotes s _ HP) as HD.
    exists (fixed_decimal s (shortest s m e)), (shortest s m e).1, (shortest s m e).2. split; [apply fixed_decimal_text|]. split; [apply HD|].
    split; [apply fixed_canonical; [done|by apply shortest_end]|]. split; [apply HD|].
    split; [rewrite (denotes_value _ _ _ _ HD); by apply best_shortest|]. split; [|intros H; by destruct (H eq_refl)].
    split; [intros _|intros _; reflexivity]. apply orb_false_iff in EB as [EB1 EB2]. rewrite L1 in EB1. rewrite L2 in EB2.
    destruct (Rlt_bool_spec (f64_R (S754_finite false m e)) (f64_R t6)); [done|].
    destruct (Rle_bool_spec (f64_R t21) (f64_R (S754_finite false m e))); [done|]. done.
Qed.

(** ** What this means for CSV and JSON *)
Lemma C91_json_exact_main : @exact_numbers go_jrt.
Proof. exact json_exact. Qed.
Lemma C91_ints_main : @ints_are_floats go_crt.
Proof. exact int_text_float. Qed.
Lemma C91_numbers_main : forall vs, (forall z, VInt z ∈ vs -> - 2 ^ 63 <= z < 2 ^ 63) -> (forall x, VFloat x ∈ vs -> is_f64 x) ->
  @numbers_ok go_crt vs.
Proof. intros vs H1 H2. split; [done|]. intros x Hx. by apply fmt_roundtrip, H2. Qed.
Lemma C91_csv_column_main : forall marker ms vs, (forall x, VFloat x ∈ vs -> is_f64 x) ->
  @survives go_crt marker ms KFloat vs <->
  (exists x, VFloat x ∈ vs /\ ~ int_like x /\ fmt_f64 x ∉ ms) /\ (forall x, VFloat x ∈ vs -> fmt_f64 x ∈ ms -> x = S754_nan).
Proof.
  intros marker ms vs Hf. unfold survives. cbn [fmt_float go_crt]. split.
  - intros (_ & (x & Hx & Hm & Hp) & H3). split; [|done]. exists x. split; [done|]. split; [|done].
    intros Hi. apply (parse_int_fmt x (Hf x Hx)) in Hi as [z Hz]. congruence.
  - intros [(x & Hx & Hi & Hm) H3]. split_and!; [| |done].
    + exists x. split; [done|]. destruct (parse_bool (fmt_f64 x)) as [b|] eqn:E; [exfalso|done]. apply Hi, parse_int_fmt; [by apply Hf|].
      assert (HB : is_Some (parse_bool (fmt_f64 x))) by (by eexists). apply (parse_bool_fmt x (Hf x Hx)) in HB as [-> | ->]; eexists; by vm_compute.
    + exists x. split; [done|]. split; [done|]. destruct (parse_int (fmt_f64 x)) as [z|] eqn:E; [exfalso|done]. apply Hi, parse_int_fmt; [by apply Hf|]. by eexists.
Qed.

(** ** Concrete cases *)
Definition w_dec : decimal := Decimal "-" "12" (Some "50") (Some ("E"%char, "+", "01")).
Definition w_tenth : f64 := S754_finite false 7205759403792794 (-56).
Definition w_2p63 : f64 := S754_finite true 4503599627370496 11.
Lemma C91_check_main :
  (is_f64 w_tenth /\ finite w_tenth /\ real_of w_tenth <> 0%R /\ fmt_f64 w_tenth = "0.1" /\ parse_f64 "0.1" = Some w_tenth) /\
  (decimal_ok w_dec /\ number_chars (decimal_text w_dec) /\ decimal_text w_dec = "-12.50E+01" /\ parse_f64 "-12.50E+01" = Some (f64_of_Z (-125))) /\
  fmt_f64 w_2p63 = "-9223372036854776000" /\ fmt_json (S754_finite false 1 (-1074)) = "5e-324" /\ fmt_json (f64_of_Z (10 ^ 21)) = "1e+21" /\
  parse_f64 "1e309" = None /\ parse_f64 "1e-400" = Some (S754_zero false) /\ parse_f64 "1__0" = None /\ parse_f64 "0x1p-2" = Some (S754_finite false 4503599627370496 (-54)) /\
  ~ @survives go_crt "" [""] KFloat [VFloat (f64_of_Z 1); VFloat (f64_of_Z 2)] /\ @survives go_crt "" [""] KFloat [VFloat (f64_of_Z 1); VFloat w_tenth].
Proof.
  assert (HT : @survives go_crt "" [""] KFloat [VFloat (f64_of_Z 1); VFloat w_tenth]).
  { split_and!.
    - exists w_tenth. split; [set_solver|by vm_compute].
    - exists w_tenth. split; [set_solver|]. split; [|by vm_compute]. intros H%elem_of_list_singleton. by vm_compute in H.
    - intros x Hx Hm. exfalso. apply elem_of_list_singleton in Hm. rewrite !elem_of_cons, elem_of_nil in Hx.
      destruct Hx as [[= ->]|[[= ->]|[]]]; by vm_compute in Hm. }
  assert (HR : real_of w_tenth <> 0%R).
  { unfold real_of, w_tenth. cbn [SF2R]. unfold F2R. cbn [Fnum Fexp cond_Zopp]. pose proof (bpow_gt_0 radix2 (-56)). nra. }
  assert (HD : decimal_ok w_dec).
  { unfold decimal_ok, w_dec, sign_ok. cbn [de_sign de_int de_frac de_exp default]. split; [auto|]. split; [by vm_compute; repeat split; repeat constructor|].
    split; [by vm_compute; repeat split; repeat constructor|]. split; [by left|]. split; [auto|]. split; [auto|]. split; [|done].
    by vm_compute; repeat split; repeat constructor. }
  assert (HC : number_chars (decimal_text w_dec)).
  { change (decimal_text w_dec) with "-12.50E+01". cbn [number_chars].
    repeat (split; [first [left; vm_compute; lia|right; apply elem_of_list_In; simpl; tauto]|]). done. }
  split; [split; [by vm_compute|split; [by vm_compute|split; [exact HR|split; by vm_compute]]]|].
  split; [split; [exact HD|split; [exact HC|split; by vm_compute]]|].
  do 7 (split; [by vm_compute|]). split; [|exact HT].
  intros (_ & (x & Hx & _ & Hp) & _). rewrite !elem_of_cons, elem_of_nil in Hx. destruct Hx as [[= ->]|[[= ->]|[]]]; by vm_compute in Hp.
Qed.
(** Exponents from 100000 on are cut: 0.00...01e100001 with 100000 zeros after
    the point is not read as 1. *)
Definition w_long : decimal := Decimal "" "0" (Some (zeros (Z.to_nat 100000) +:+ "1")) (Some ("e"%char, "", "100001")).
Lemma small_power k : k <= -1 -> (0 <= dec 1 k <= / 2)%R.
Proof.
  intros Hk. split; [unfold dec; pose proof (powerRZ_10_pos k); lra|].
  assert (H : (dec 1 k <= dec 1 (k + (-1 - k)))%R).
  { apply dec_ge; [lia|]. rewrite Z.mul_1_l. apply (Zlt_le_succ 0), Z.pow_pos_nonneg; lia. }
  replace (k + (-1 - k)) with (-1) in H by lia. assert (E : dec 1 (-1) = (/ 10)%R) by (unfold dec; rewrite Rmult_1_l; cbn [powerRZ]; by rewrite Pos2Nat.inj_1, pow_1). lra.
Qed.
Lemma C91_long_exponent_refuted_main : exists d x, decimal_ok d /\ decimal_value d = 1%R /\ parse_f64 (decimal_text d) = Some x /\ (real_of x < 1)%R.
Proof.
  destruct (zeros_digits (Z.to_nat 100000)) as (Z1 & Z2 & Z3).
  assert (Hl : Z.of_nat (String.length (zeros (Z.to_nat 100000) +:+ "1")) = 100001).
  { rewrite length_app, Z3, Z2Nat.id by lia. reflexivity. }
  assert (Hv : value ("0" +:+ zeros (Z.to_nat 100000) +:+ "1") = 1).
  { rewrite !value_app, Z2. change (value "0") with 0. change (value "1") with 1. lia. }
  set (zs := zeros (Z.to_nat 100000) +:+ "1") in *. assert (Hz : digits zs).
  { unfold zs. apply digits_app. split; [done|]. by vm_compute; repeat split; repeat constructor. }
  unfold w_long. fold zs. set (d := Decimal "" "0" (Some zs) (Some ("e"%char, "", "100001"))).
  assert (Hd : decimal_ok d).
  { unfold d, decimal_ok. cbn [de_sign de_int de_frac de_exp default]. split; [by left|]. split; [by vm_compute; repeat split; repeat constructor|]. split; [exact Hz|]. split; [by left|].
    split; [by left|]. split; [by left|]. split; [|done]. by vm_compute; repeat split; repeat constructor. }
  pose proof (parse_decimal_exp d 10000 Hd eq_refl) as HP. change (default "" (de_frac d)) with zs in HP. change (de_int d) with "0" in HP.
  rewrite Hv, Hl in HP. change (minus_sign d) with false in HP. change (10000 - 100001) with (-90001) in HP.
  destruct (scaled_spec 10 false 1 (-90001) eq_refl) as (V & F & _).
  assert (Hr : (0 <= dec 1 (-90001) <= / 2)%R) by (by apply small_power).
  assert (Fh : rnd64 (/ 2) = (/ 2)%R).
  { apply rnd_F. change (/ 2)%R with (bpow radix2 (-1)). apply generic_format_bpow. by vm_compute. }
  assert (E0 : rnd64 0 = 0%R) by apply (round_0 radix2 _ _).
  destruct Hr as [H1 H2]. apply rnd_mono in H1. apply rnd_mono in H2. rewrite E0 in H1. rewrite Fh in H2.
  change (sgn false * (IZR 1 * powerRZ (IZR 10) (-90001)))%R with (1 * dec 1 (-90001))%R in F. rewrite Rmult_1_l in F.
  destruct F as (E & FF & _).
  { rewrite Rabs_right by lra. apply Rle_lt_trans with (bpow radix2 0); [cbn; lra|]. apply bpow_lt. lia. }
  assert (HV : decimal_value d = 1%R).
  { unfold decimal_value. change (default "" (de_frac d)) with zs. change (de_int d) with "0". rewrite Hv, Hl.
    change (decimal_exp d - 100001) with 0. change (minus_sign d) with false. cbn [powerRZ]. lra. }
  clearbody d. revert HP E FF. generalize (scaled 10 false 1 (-90001)). intros x HP E FF.
  exists d, x. split; [done|]. split; [done|]. split.
  - rewrite HP. by destruct x.
  - change (real_of x) with (f64_R x). rewrite E. lra.
Qed.
