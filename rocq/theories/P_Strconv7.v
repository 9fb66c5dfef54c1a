(** Texts that are read; the texts of floats read as integers and booleans. *)
From Coq Require Import Reals Psatz.
From Flocq Require Import Core BinarySingleNaN.
From Verif Require Import M_Strconv.
From stdpp Require Import strings pretty list.
From Verif Require Import P_Float P_FloatEx Spec_Json Spec_Strconv P_Csv4 P_Strconv P_Strconv2 P_Strconv3 P_Strconv4 P_Strconv5 P_Strconv6.
From Coq Require Import Strings.Ascii.
Local Open Scope Z_scope.

(** ** The value of a decimal number *)
Lemma sgn_minus d : (if minus_sign d then -1 else 1)%R = sgn (minus_sign d).
Proof. reflexivity. Qed.
Lemma parse_rounded d : decimal_ok d -> Z.abs (decimal_exp d) < 100000 ->
  rounded (minus_sign d) (decimal_value d) (parse_f64 (decimal_text d)).
Proof.
  intros Hd He. rewrite (parse_decimal d Hd He). unfold decimal_value. rewrite sgn_minus.
  set (V := value _). set (k := decimal_exp d - _). set (s := minus_sign d).
  assert (HV : 0 <= V).
  { destruct Hd as (_ & D1 & D2 & _). apply (value_bounds (de_int d +:+ default "" (de_frac d))). by apply digits_app. }
  unfold rounded. rewrite <- rnd64_even. destruct (decide (V = 0)) as [EV|EV].
  - rewrite EV. cbn [scaled in_range]. replace (sgn s * 0 * powerRZ 10 k)%R with 0%R by ring.
    assert (E0 : rnd64 0 = 0%R) by apply (round_0 radix2 _ _). rewrite E0, Rabs_R0. split.
    + intros _. exists (S754_zero s). repeat split; done.
    + intros H. pose proof (bpow_gt_0 radix2 1024). lra.
  - destruct (scaled_spec 10 s V k ltac:(lia)) as (S1 & S2 & S3). rewrite <- Rmult_assoc in S2, S3. split.
    + intros H. destruct (S2 H) as (E1 & E2 & E3). exists (scaled 10 s V k). split; [|split; [done|split; [by apply is_f64_finite|split; [done|]]]].
      * clear -E2. destruct (scaled 10 s V k); [done|discriminate E2|done|done].
      * clear -E2 E3. destruct (scaled 10 s V k); [exact E3..|discriminate E2|exact E3].
    + intros H. by rewrite (S3 H).
Qed.

(** ** Syntax *)
Lemma char_cases c : (48 <= nat_of_ascii c <= 57)%nat \/ c ∈ ["."%char; "+"%char; "-"%char; "e"%char; "E"%char] ->
  c <> "_"%char /\ lower c <> "x"%char /\ (lower c = "e"%char -> c = "e"%char \/ c = "E"%char).
Proof.
  intros H. rewrite !elem_of_cons, elem_of_nil in H.
  destruct H as [H|[->|[->|[->|[->|[->|[]]]]]]]; [|repeat split; auto; discriminate..].
  split; [intros ->; vm_compute in H; lia|]. split.
  - pose proof (digit_of c H) as Hd. by apply digit_not in Hd as (_ & _ & _ & _ & ?).
  - intros E. destruct c as [[] [] [] [] [] [] [] []]; try discriminate; auto.
Qed.
Lemma chars_app s t : number_chars (s +:+ t) -> number_chars t.
Proof. induction s as [|c s IH]; [done|]. rewrite app_cons. intros [_ H]. by apply IH. Qed.
Lemma bd_cons c s : bool_decide (String c s <> "") = true.
Proof. by apply bool_decide_eq_true_2. Qed.
Lemma read_frac_inv s : forall v f any us st r, number_chars s -> read_mant false (Mant v f true any us) s = Some (st, r) ->
  exists fp, digits fp /\ s = fp +:+ r /\ mt_any st = any || bool_decide (fp <> "").
Proof.
  induction s as [|c s IH]; intros v f any us st r Hc; cbn [read_mant].
  - intros [= <- <-]. exists "". cbn [mt_any]. rewrite orb_false_r. done.
  - destruct Hc as [H1 H2]. destruct (char_cases c H1) as (N1 & _). rewrite decide_False by done.
    destruct (decide (c = "."%char)) as [->|N2]; [done|]. rewrite fdigit_dec. destruct (digit c) as [d|] eqn:E.
    + intros H. destruct (IH _ _ _ _ _ _ H2 H) as (fp & F1 & -> & F3). exists (String c fp). apply digit_some in E as [E _].
      split; [done|]. split; [done|]. rewrite F3, bd_cons. by rewrite orb_true_r.
    + intros [= <- <-]. exists "". rewrite app_nil. cbn [mt_any]. rewrite orb_false_r. done.
Qed.
Lemma read_mant_inv s : forall v f any us st r, number_chars s -> read_mant false (Mant v f false any us) s = Some (st, r) ->
  exists ip fp, digits ip /\ digits (default "" fp) /\ s = ip +:+ match fp with None => "" | Some f => "." +:+ f end +:+ r /\
    mt_any st = any || bool_decide (ip <> "") || bool_decide (default "" fp <> "").
Proof.
  induction s as [|c s IH]; intros v f any us st r Hc; cbn [read_mant].
  - intros [= <- <-]. exists "", None. cbn [mt_any default]. rewrite !orb_false_r. done.
  - destruct Hc as [H1 H2]. destruct (char_cases c H1) as (N1 & _). rewrite decide_False by done.
    destruct (decide (c = "."%char)) as [->|N2].
    + intros H. destruct (read_frac_inv s _ _ _ _ _ _ H2 H) as (fp & F1 & -> & F3). exists "", (Some fp). cbn [default]. unfold Datatypes.id.
      split; [done|]. split; [done|]. split; [by rewrite app_nil, app_cons, app_nil, app_cons|]. rewrite F3. by rewrite orb_false_r.
    + rewrite fdigit_dec. destruct (digit c) as [d|] eqn:E.
      * intros H. destruct (IH _ _ _ _ _ _ H2 H) as (ip & fp & F1 & F2 & -> & F3). exists (String c ip), fp. apply digit_some in E as [E _].
        split; [done|]. split; [done|]. split; [done|]. rewrite F3, bd_cons. by rewrite orb_true_r.
      * intros [= <- <-]. exists "", None. rewrite !app_nil. cbn [mt_any default]. rewrite !orb_false_r. done.
Qed.
Lemma read_exp_inv s : forall e us r, number_chars s -> read_exp e us s = Some r -> digits s.
Proof.
  induction s as [|c s IH]; intros e us r Hc; cbn [read_exp]; [done|]. destruct Hc as [H1 H2]. destruct (char_cases c H1) as (N1 & _).
  rewrite decide_False by done. destruct (digit c) as [d|] eqn:E; [|done]. intros H. apply digit_some in E as [E _]. split; [done|]. by eapply IH.
Qed.
Lemma strip_sign_inv s n t : strip_sign s = (n, t) -> exists sg, sign_ok sg /\ s = sg +:+ t.
Proof.
  destruct s as [|c s]; cbn [strip_sign].
  - intros [= <- <-]. exists "". split; [by left|done].
  - destruct (decide _) as [->|]; [|destruct (decide _) as [->|]]; intros [= <- <-].
    + exists "+". split; [unfold sign_ok; auto|done].
    + exists "-". split; [unfold sign_ok; auto|done].
    + exists "". split; [by left|done].
Qed.
Lemma exp_part_inv r e us : number_chars r -> exp_part false r = Some (e, us) -> exists o, tail_ok o /\ r = tail_text o.
Proof.
  destruct r as [|c r]; [by exists None|]. intros [H1 H2]. destruct (char_cases c H1) as (_ & _ & N3). cbn [exp_part].
  destruct (decide _) as [E|]; [|done]. destruct (strip_sign r) as [n t] eqn:ES. apply strip_sign_inv in ES as (sg & Hs & ->).
  destruct t as [|d t]; [done|]. destruct (digit d) as [dv|]; [|done]. destruct (read_exp 0 false (String d t)) as [[e' us']|] eqn:ER; [|done].
  intros _. exists (Some (c, sg, String d t)). split; [|done]. split; [auto|]. split; [done|]. split; [|done].
  apply (read_exp_inv _ _ _ _ (chars_app _ _ H2) ER).
Qed.
Lemma special_chars s : number_chars s -> special s = None.
Proof.
  intros H. unfold special. assert (HN : forall c, c ∈ ["n"%char; "i"%char] -> forall a b, lowers s <> a +:+ String c b).
  { intros c Hc. induction s as [|d s IH]; intros a b; [by destruct a|]. destruct H as [H1 H2]. cbn [lowers]. destruct a as [|x a].
    - rewrite app_nil. intros [= E _]. rewrite !elem_of_cons, elem_of_nil in Hc. rewrite !elem_of_cons, elem_of_nil in H1.
      destruct H1 as [H1|[->|[->|[->|[->|[->|[]]]]]]]; [|destruct Hc as [->|[->|[]]]; discriminate..].
      destruct d as [[] [] [] [] [] [] [] []]; vm_compute in H1; try lia; destruct Hc as [->|[->|[]]]; discriminate.
    - rewrite app_cons. intros [= _ E]. by eapply IH. }
  assert (Hi : forall a b, lowers s <> a +:+ String "i" b) by (apply HN; set_solver).
  assert (Hn : forall a b, lowers s <> a +:+ String "n" b) by (apply HN; set_solver).
  rewrite !decide_False; [done|..].
  - intros E. by apply (Hn "" "an").
  - rewrite !elem_of_cons, elem_of_nil. intros [E|[E|[]]]; [by apply (Hi "-" "nf")|by apply (Hi "-" "nfinity")].
  - rewrite !elem_of_cons, elem_of_nil. intros [E|[E|[E|[E|[]]]]]; [by apply (Hi "" "nf")|by apply (Hi "+" "nf")|by apply (Hi "" "nfinity")|by apply (Hi "+" "nfinity")].
Qed.
Lemma parse_syntax s x : number_chars s -> parse_f64 s = Some x -> exists d, decimal_ok d /\ s = decimal_text d.
Proof.
  intros Hc. unfold parse_f64. rewrite (special_chars s Hc). destruct (strip_sign s) as [n t] eqn:ES.
  apply strip_sign_inv in ES as (sg & Hs & ->). apply chars_app in Hc.
  rewrite strip_hex_num.
  2: { intros c r ->. destruct Hc as (_ & Hc & _). by destruct (char_cases _ Hc) as (_ & ? & _). }
  destruct (read_mant _ _ t) as [[st r]|] eqn:ER; [|done]. apply read_mant_inv in ER as (ip & fp & F1 & F2 & -> & F3); [|done].
  destruct st as [v f dot any us]. cbn [mt_any] in F3. destruct any; [|done].
  destruct (exp_part false r) as [[e us']|] eqn:EE; [|done]. apply exp_part_inv in EE as (o & Ho & ->); [|by do 2 apply chars_app in Hc].
  intros _. exists (Decimal sg ip fp o). split; [|reflexivity]. split; [done|]. split; [done|]. split; [done|]. split; [|done].
  cbn [de_int de_frac]. cbn [orb] in F3. symmetry in F3. apply orb_true_iff in F3 as [F3|F3]; apply bool_decide_eq_true in F3; auto.
Qed.

(** ** Integers *)
Lemma parse_int_sign s t : (exists c r, t = String c r /\ is_Some (digit c)) ->
  parse_int (sign_text s +:+ t) =
  match parse_nat t with Some z => let z := if s then - z else z in if decide (- 2 ^ 63 <= z < 2 ^ 63) then Some z else None | None => None end.
Proof.
  intros (c & r & -> & [d Hd]). destruct s; cbn [sign_text].
  - rewrite app_cons, app_nil. unfold parse_int. destruct (parse_nat (String c r)); done.
  - rewrite app_nil. unfold parse_int. destruct (digit_not c d Hd) as (_ & _ & N1 & N2 & _).
    destruct c as [[] [] [] [] [] [] [] []]; try reflexivity; by vm_compute in Hd.
Qed.
Lemma int_text_float s : is_Some (parse_int s) -> is_Some (parse_f64 s).
Proof.
  assert (HP : forall sg t z, sign_ok sg -> parse_nat t = Some z -> z <= 2 ^ 63 -> is_Some (parse_f64 (sg +:+ t))).
  { intros sg t z Hs HP Hz. unfold parse_nat in HP. destruct (decide (t = "")) as [|Ht]; [done|].
    pose proof (parse_digits_digits _ _ _ HP) as Hd. rewrite (parse_digits_value t 0 Hd) in HP. injection HP as HP.
    set (d := Decimal sg t None None). assert (Hok : decimal_ok d) by (repeat split; auto).
    assert (ET : sg +:+ t = decimal_text d). { unfold decimal_text. cbn. by rewrite app_nil_r'. }
    rewrite ET. destruct (parse_rounded d Hok ltac:(by vm_compute)) as [H _]. rewrite <- rnd64_even in H.
    destruct H as (x & -> & _); [|by eexists]. unfold decimal_value. rewrite sgn_minus. cbn [de_int de_frac default]. rewrite app_nil_r'.
    replace (decimal_exp d - _) with 0 by done. cbn [powerRZ]. rewrite Rmult_1_r, rnd_sgn, sgn_abs.
    pose proof (value_bounds t Hd) as [HV _]. assert (HV' : value t <= 2 ^ 63) by lia.
    apply IZR_le in HV'. apply rnd_mono in HV'. apply IZR_le, rnd_mono in HV.
    assert (E0 : rnd64 0 = 0%R) by apply (round_0 radix2 _ _).
    assert (E63 : rnd64 (IZR (2 ^ 63)) = IZR (2 ^ 63)).
    { change (IZR (2 ^ 63)) with (bpow radix2 63). apply rnd_F, generic_format_bpow. by vm_compute. }
    rewrite E0 in HV. rewrite E63 in HV'. change (de_int d) with t. rewrite Rabs_right by lra. eapply Rle_lt_trans; [exact HV'|].
    change (IZR (2 ^ 63)) with (bpow radix2 63). apply bpow_lt. lia. }
  unfold parse_int. destruct s as [|c s]; [by intros []|].
  destruct (decide (c = "+"%char)) as [->|N1]; [|destruct (decide (c = "-"%char)) as [->|N2]].
  - destruct (parse_nat s) as [z|] eqn:E; [|by intros []]. destruct (decide _); [|by intros []]. intros _. apply (HP "+" s z); [unfold sign_ok; auto|done|lia].
  - destruct (parse_nat s) as [z|] eqn:E; [|by intros []]. cbn [fmap option_fmap option_map]. destruct (decide _); [|by intros []]. intros _.
    apply (HP "-" s z); [unfold sign_ok; auto|done|lia].
  - replace (match String c s with String "+" t => parse_nat t | String "-" t => Z.opp <$> parse_nat t | _ => parse_nat (String c s) end) with (parse_nat (String c s))
      by (destruct c as [[] [] [] [] [] [] [] []]; done).
    destruct (parse_nat (String c s)) as [z|] eqn:E; [|by intros []]. destruct (decide _); [|by intros []]. intros _. apply (HP "" (String c s) z); [by left|done|lia].
Qed.
Lemma not_digits_dot a b : ~ digits (a +:+ "." +:+ b).
Proof. rewrite !digits_app. intros (_ & [H _] & _). vm_compute in H. lia. Qed.
Lemma bpow_63 : IZR (2 ^ 63) = bpow radix2 63.
Proof. reflexivity. Qed.
Lemma fixed_digit p : 0 < p.1 -> exists c r, fixed_text p = String c r /\ is_Some (digit c).
Proof.
  intros HD. assert (Hp : forall t, exists c r, pretty (Z.to_N p.1) +:+ t = String c r /\ is_Some (digit c)).
  { intros t. destruct (pretty_head _ HD) as (c & r & E & _). destruct (pretty_ds _ HD) as (P1 & _). rewrite E in *. destruct P1 as [P1 _].
    exists c, (r +:+ t). split; [done|]. rewrite (digit_of c P1). by eexists. }
  unfold fixed_text. destruct p.2 as [|k|k]; [apply Hp|apply Hp|].
  destruct (Nat.ltb _ _) eqn:E.
  - apply Nat.ltb_lt in E. destruct (pretty_head _ HD) as (c & r & E' & _). destruct (pretty_ds _ HD) as (P1 & _). rewrite E' in *. destruct P1 as [P1 _].
    destruct (String.length (String c r) - Pos.to_nat k)%nat as [|a] eqn:Ea; [lia|]. cbn [substring]. rewrite app_cons. eexists _, _. split; [done|].
    rewrite (digit_of c P1). by eexists.
  - eexists "0"%char, _. split; [reflexivity|]. by eexists.
Qed.
Lemma parse_int_finite s m e (x := S754_finite s m e) : is_f64 x -> is_Some (parse_int (fmt_f64 x)) <-> int_like x.
Proof.
  intros Hx. destruct (f64_F s m e Hx) as [HF HX]. destruct (f64_bounds s m e Hx) as [He Hm].
  destruct (shortest_ok s m e Hx) as [HS HP]. pose proof HS as HS'. apply scaled_pos_spec in HS'; [|done..].
  unfold x. cbn [fmt_f64]. rewrite (parse_int_sign s _ (fixed_digit _ HP)).
  assert (HT : parse_nat (fixed_text (shortest s m e)) = if decide (0 <= (shortest s m e).2) then Some ((shortest s m e).1 * 10 ^ (shortest s m e).2) else None).
  { destruct (fixed_digit _ HP) as (c & r & E & _). unfold parse_nat. rewrite decide_False by (rewrite E; done).
    assert (Hd : forall k, 0 <= k -> parse_digits 0 (pretty (Z.to_N (shortest s m e).1) +:+ zeros (Z.to_nat k)) = Some ((shortest s m e).1 * 10 ^ k)).
    { intros k Hk. destruct (pretty_ds _ HP) as (P1 & P2 & _). destruct (zeros_digits (Z.to_nat k)) as (Z1 & Z2 & Z3).
      rewrite parse_digits_value by (by apply digits_app). rewrite value_app, P2, Z2, Z3, Z2Nat.id by lia. f_equal. lia. }
    unfold fixed_text. destruct ((shortest s m e).2) as [|k|k].
    - rewrite decide_True by lia. apply (Hd 0). lia.
    - rewrite decide_True by lia. apply (Hd (Zpos k)). lia.
    - rewrite decide_False by lia. destruct (parse_digits 0 _) as [z|] eqn:EP; [exfalso|done]. apply parse_digits_digits in EP.
      destruct (Nat.ltb _ _); [by apply not_digits_dot in EP|].
      by apply (not_digits_dot "0") in EP. }
  rewrite HT. set (p := shortest s m e) in *.
  assert (HR : real_of (S754_finite s m e) = (sgn s * (IZR (Zpos m) * bpow radix2 e))%R) by apply f64_R_finite.
  destruct (decide (0 <= p.2)) as [Hk|Hk].
  2: { split; [by intros []|]. intros [_ (z & Ez & _)]. destruct Hk.
       apply (integer_exponent s m e (if s then - z else z) Hx). rewrite HR in Ez. destruct s; unfold sgn in Ez; rewrite ?opp_IZR; lra. }
  set (V := p.1 * 10 ^ p.2). assert (HV : 0 < V) by (unfold V; pose proof (Z.pow_pos_nonneg 10 p.2); nia).
  assert (EV : dec p.1 p.2 = IZR V).
  { rewrite <- dec_0. unfold V. rewrite dec_shift by done. done. }
  rewrite EV in HS'. set (X := (IZR (Zpos m) * bpow radix2 e)%R) in *.
  assert (F63 : rnd64 (IZR (2 ^ 63)) = IZR (2 ^ 63)).
  { rewrite bpow_63. apply rnd_F, generic_format_bpow. by vm_compute. }
  assert (HV63 : is_Some (if decide (- 2 ^ 63 <= (if s then - V else V) < 2 ^ 63) then Some (if s then - V else V) else None) <-> (X < IZR (2 ^ 63))%R).
  { split.
    - destruct (decide _) as [H|H]; [|by intros []]. intros _. assert (HV' : V <= 2 ^ 63) by (destruct s; lia).
      apply IZR_le, rnd_mono in HV'. rewrite F63, HS' in HV'. destruct (Req_dec X (IZR (2 ^ 63))) as [E|E]; [exfalso|lra].
      assert (Ex : S754_finite s m e = S754_finite s 4503599627370496 11).
      { apply f64_unique; [done|by vm_compute|done|done| |done]. rewrite !f64_R_finite. f_equal. fold X. rewrite E.
        change (bpow radix2 11) with (IZR (2 ^ 11)). by rewrite <- mult_IZR. }
      injection Ex as -> ->. assert (Ep : forall s, shortest s 4503599627370496 11 = (9223372036854776, 3)) by (intros []; by vm_compute).
      unfold V, p in H. rewrite Ep in H. cbn [fst snd] in H. destruct s; vm_compute in H; destruct H as [H1 H2]; first [by destruct (H1 eq_refl)|discriminate H2].
    - intros HX63. assert (V < 2 ^ 63).
      { apply Z.nle_gt. intros H. apply IZR_le, rnd_mono in H. rewrite F63, HS' in H. lra. }
      rewrite decide_True; [by eexists|]. destruct s; lia. }
  cbv zeta. rewrite HV63. split.
  - intros H. split; [split; done|]. destruct (rnd_integer V m e HV ltac:(lia) Hm HS') as [z Ez]. fold X in Ez.
    exists (if s then - z else z). rewrite HR, Ez in *. apply lt_IZR in H. apply lt_IZR in HX. split; [|destruct s; lia].
    destruct s; unfold sgn; rewrite ?opp_IZR; lra.
  - intros [_ (z & Ez & Hz)]. rewrite HR in Ez. assert (X = IZR (if s then - z else z)) as ->.
    { destruct s; unfold sgn in Ez; rewrite ?opp_IZR; lra. }
    apply IZR_lt. destruct s; lia.
Qed.
Lemma parse_int_fmt x : is_f64 x -> is_Some (parse_int (fmt_f64 x)) <-> int_like x.
Proof.
  intros Hx. destruct x as [s|s| |s m e]; [| | |by apply parse_int_finite].
  - split; intros _; [|destruct s; vm_compute; by eexists]. split; [done|]. exists 0. split; [done|lia].
  - split; [intros [z Hz]; destruct s; by vm_compute in Hz|]. intros [[_ H] _]. by destruct (H s).
  - split; [intros [z Hz]; by vm_compute in Hz|]. by intros [[H _] _].
Qed.
Lemma parse_bool_fmt x : is_f64 x -> is_Some (parse_bool (fmt_f64 x)) <-> x = S754_zero false \/ x = f64_one.
Proof.
  intros Hx. pose proof (fmt_roundtrip x Hx) as HR. split; [|by intros [-> | ->]; eexists; vm_compute].
  intros H. assert (Hi : fmt_f64 x ∈ ["1"; "t"; "T"; "TRUE"; "true"; "True"; "0"; "f"; "F"; "FALSE"; "false"; "False"]).
  { unfold parse_bool in H. destruct (decide _) as [H'|_]; [set_solver|]. destruct (decide _) as [H'|_]; [set_solver|]. by destruct H. }
  rewrite !elem_of_cons, elem_of_nil in Hi.
  repeat (destruct Hi as [Hi|Hi]; [rewrite Hi in HR; vm_compute in HR; first [discriminate HR|injection HR as <-; by auto]|]). done.
Qed.
