(** Names used as formats: C82. *)
From stdpp Require Import pretty.
From Coq Require Import Strings.Ascii.
From Verif Require Import M_Fmt Spec_Print Spec_Fmt P_View2 P_LinReg5 P_CsvText.
From Verif Require Export P_Print.
From Verif Require Import P_PrintMain P_Auto4 P_Check.

Lemma slen_sdrop k s : String.length (sdrop k s) = String.length s - k.
Proof. revert s. induction k as [|k IH]; intros [|c s]; try done. cbn [sdrop String.length]. by rewrite IH. Qed.
Lemma flags_le s : String.length (skip_flags s) <= String.length s.
Proof. induction s as [|c s IH]; [done|]. cbn [skip_flags]. destruct (is_flag c); cbn [String.length]; lia. Qed.
Lemma num_le z b s : String.length (parsenum_ z b s).2 <= String.length s.
Proof.
  revert z b. induction s as [|c s IH]; intros z b; [done|]. cbn [parsenum_]. destruct (digit c) as [x|]; [|done].
  destruct (decide _); [cbn; lia|]. cbn [String.length]. specialize (IH (z * 10 + x)%Z true). lia.
Qed.
Lemma bracket_le s p : to_bracket s = Some p -> String.length p.2 <= String.length s.
Proof.
  revert p. induction s as [|c s IH]; intros p; [done|]. cbn [to_bracket]. destruct (decide _); [intros [= <-]; cbn; lia|].
  destruct (to_bracket s) as [q|] eqn:E; [|done]. intros [= <-]. cbn. specialize (IH q eq_refl). lia.
Qed.
Lemma arg_le s : String.length (arg_number s).2 <= String.length s.
Proof.
  unfold arg_number. destruct s as [|c s]; [done|]. destruct (decide (c = _)); [|done].
  destruct (decide _); [cbn; lia|]. destruct (to_bracket s) as [[nn r]|] eqn:E; [|cbn; lia].
  apply bracket_le in E. cbn in *. lia.
Qed.
Lemma width_le s a g : String.length (width_part s a g).2 <= String.length s.
Proof.
  unfold width_part. destruct s as [|c s]; [done|]. destruct (decide _); [cbn; lia|].
  pose proof (num_le 0 false (String c s)) as H. unfold parsenum. destruct (parsenum_ 0 false (String c s)). cbn in *. lia.
Qed.
Lemma prec_le s a g : String.length (prec_part s a g).2 <= String.length s.
Proof.
  unfold prec_part. destruct s as [|c s]; [done|]. destruct (decide _); [|done].
  pose proof (arg_le s) as H. destruct (arg_number s) as [[x y] r]. cbn in H |- *. destruct r as [|c' r']; [cbn in *; lia|].
  destruct (decide _); [cbn in *; lia|]. pose proof (num_le 0 false (String c' r')) as H'. unfold parsenum. cbn in *. lia.
Qed.
Lemma verb_lt s g o r : verb_part s g = (o, Some r) -> String.length r < String.length s.
Proof.
  unfold verb_part. destruct s as [|c s]; [done|]. destruct (decide _); [intros [= <- <-]; cbn; lia|].
  destruct (rune_len (String c s)) as [|k]; intros [= <- <-]; [cbn; lia|]. cbn [sdrop String.length]. rewrite slen_sdrop. lia.
Qed.
Lemma one_verb_lt s o r : one_verb s = (o, Some r) -> String.length r < String.length s.
Proof.
  unfold one_verb. pose proof (flags_le s) as H1. generalize dependent (skip_flags s). intros s1 H1.
  pose proof (arg_le s1) as H2. destruct (arg_number s1) as [[a1 g1] s2]. cbn in H2.
  pose proof (width_le s2 a1 g1) as H3. destruct (width_part s2 a1 g1) as [[[o3 a3] g3] s3]. cbn in H3.
  pose proof (prec_le s3 a3 g3) as H4. destruct (prec_part s3 a3 g3) as [[[o4 a4] g4] s4]. cbn in H4.
  destruct a4.
  - destruct (verb_part s4 g4) as [o5 r5] eqn:E. intros [= <- ->]. apply verb_lt in E. lia.
  - pose proof (arg_le s4) as H5. destruct (arg_number s4) as [[a5 g5] s5]. cbn in H5.
    destruct (verb_part s5 (g4 && g5)) as [o5 r5] eqn:E. intros [= <- ->]. apply verb_lt in E. lia.
Qed.
Lemma printf_fuel n m s : String.length s <= n -> String.length s <= m -> printf0_ n s = printf0_ m s.
Proof.
  revert m s. induction n as [|n IH]; intros m s Hn Hm.
  - destruct s; [by destruct m|cbn in Hn; lia].
  - destruct s as [|c s]; [by destruct m|]. destruct m as [|m]; [cbn in Hm; lia|]. cbn [printf0_]. cbn in Hn, Hm.
    destruct (decide _).
    + destruct (one_verb s) as [o [r|]] eqn:E; [|done]. apply one_verb_lt in E. by rewrite (IH m r) by lia.
    + by rewrite (IH m s) by lia.
Qed.
Lemma printf_plain c s : c <> cPercent -> printf0 (String c s) = String c (printf0 s).
Proof. intros H. unfold printf0. cbn [String.length printf0_]. by rewrite decide_False. Qed.
Lemma printf_verb s : printf0 (String cPercent s) = match one_verb s with (o, Some r) => o +:+ printf0 r | (o, None) => o end.
Proof.
  unfold printf0. cbn [String.length printf0_]. rewrite decide_True by done. destruct (one_verb s) as [o [r|]] eqn:E; [|done].
  apply one_verb_lt in E. by rewrite (printf_fuel _ (String.length r)) by lia.
Qed.
Lemma C82_literal_main : forall u s, no_percent u -> printf0 (u +:+ s) = u +:+ printf0 s.
Proof.
  intros u s. induction u as [|c u IH]; [done|]. intros [Hc Hu]. rewrite !sapp_cons, printf_plain by done. by rewrite IH.
Qed.
(** ** Directives *)
Lemma flag_iff c : is_flag c = true <-> a_flag c.
Proof. unfold is_flag. by rewrite bool_decide_eq_true. Qed.
Lemma digit_iff c : is_Some (digit c) <-> a_digit c.
Proof.
  unfold digit, a_digit. assert (E : Z.of_N (N_of_ascii c) = Z.of_nat (nat_of_ascii c)) by (unfold nat_of_ascii; lia). rewrite E.
  destruct (decide _) as [H|H]; (split; [|intros; try (by eexists)]); [lia|by intros [? ?]|lia].
Qed.
Lemma digit_val c x : digit c = Some x -> (0 <= x <= 9)%Z.
Proof. unfold digit. destruct (decide _); [|done]. intros [= <-]. lia. Qed.
Lemma flags_app F T : each a_flag F -> skip_flags (F +:+ T) = skip_flags T.
Proof.
  induction F as [|c F IH]; [done|]. intros [Hc HF]. rewrite sapp_cons. cbn [skip_flags]. apply flag_iff in Hc. rewrite Hc. by apply IH.
Qed.
(** What follows a number: nothing, or something else than a digit or a flag. *)
Definition stops (T : string) : Prop := match T with EmptyString => True | String c _ => ~ a_flag c /\ ~ a_digit c end.
Lemma flags_digits D T : each a_digit D -> stops T ->
  exists D', skip_flags (D +:+ T) = D' +:+ T /\ each a_digit D' /\ String.length D' <= String.length D.
Proof.
  intros HD HT. induction D as [|c D IH].
  - exists "". split; [|split; [done|cbn; lia]]. rewrite !sapp_nil_l. destruct T as [|c T]; [done|]. cbn [skip_flags].
    destruct (is_flag c) eqn:E; [|done]. apply flag_iff in E. by destruct HT.
  - destruct HD as [Hc HD]. destruct (IH HD) as (D' & E & H1 & H2). rewrite sapp_cons. cbn [skip_flags]. destruct (is_flag c).
    + exists D'. split; [done|]. split; [done|]. cbn. lia.
    + exists (String c D). split; [by rewrite sapp_cons|]. done.
Qed.
Fixpoint pow10 (k : nat) : Z := match k with 0 => 1 | S k => 10 * pow10 k end.
Lemma num_digits D T z b k : each a_digit D -> stops T -> (0 <= z < pow10 k)%Z -> k + String.length D <= 7 ->
  exists b', parsenum_ z b (D +:+ T) = (b', T).
Proof.
  revert z b k. induction D as [|c D IH]; intros z b k HD HT Hz Hk.
  - exists b. rewrite sapp_nil_l. destruct T as [|c T]; [done|]. cbn [parsenum_]. destruct (digit c) as [x|] eqn:E; [|done].
    destruct HT as [_ HT]. destruct HT. apply digit_iff. by eexists.
  - destruct HD as [Hc HD]. rewrite sapp_cons. cbn [parsenum_]. apply digit_iff in Hc as [x Hx]. rewrite Hx. apply digit_val in Hx.
    cbn [String.length] in Hk.
    assert (pow10 k <= 1000000)%Z.
    { assert (H6 : k <= 6) by lia. clear -H6. do 7 (destruct k as [|k]; [cbn; lia|]). lia. }
    rewrite decide_False by lia. apply (IH _ _ (S k)); [done|done| |lia]. cbn [pow10]. lia.
Qed.
Lemma parsenum_number D T : a_number D -> stops T -> exists b, parsenum (D +:+ T) = (b, T).
Proof. intros [H1 H2] HT. apply (num_digits D T 0 false 0); [done|done|cbn; lia|lia]. Qed.
Lemma digit_not D c T : each a_digit D -> stops T -> ~ a_digit c -> (forall r, T <> String c r) -> forall r, D +:+ T <> String c r.
Proof.
  intros HD HT Hc HN r. destruct D as [|a D]; [by rewrite sapp_nil_l|]. rewrite sapp_cons. intros [= -> _]. by destruct HD.
Qed.
Lemma arg_none s : (forall r, s <> String "["%char r) -> arg_number s = (false, true, s).
Proof. intros H. unfold arg_number. destruct s as [|c s]; [done|]. rewrite decide_False; [done|]. intros ->. by apply (H s). Qed.
Lemma width_none s T : (forall r, s <> String "*"%char r) -> (exists b, parsenum s = (b, T)) -> (s = "" -> T = "") -> width_part s false true = ("", false, true, T).
Proof.
  intros H [b E] HT. unfold width_part. destruct s as [|c s]; [by rewrite HT|]. rewrite decide_False by (intros ->; by apply (H s)). rewrite E. done.
Qed.
Lemma dig_no c : (48 <=? nat_of_ascii c) && (nat_of_ascii c <=? 57) = false -> ~ a_digit c.
Proof. intros E [A B]. apply Nat.leb_le in A, B. by rewrite A, B in E. Qed.
Lemma flag_no c : is_flag c = false -> ~ a_flag c.
Proof. intros E H. apply flag_iff in H. congruence. Qed.
Lemma not_star : ~ a_digit "*"%char /\ ~ a_digit "["%char /\ ~ a_digit "."%char.
Proof. split_and!; apply dig_no; by vm_compute. Qed.
Definition ends (T : string) : Prop :=
  stops T /\ (forall r, T <> String "*"%char r) /\ (forall r, T <> String "["%char r) /\ (forall r, T <> String "."%char r).
Lemma one_prefix p T : a_prefix p -> ends T -> one_verb (p +:+ T) = verb_part T true.
Proof.
  intros (F & D & P & -> & HF & [HD HL] & HP) (HT1 & HT2 & HT3 & HT4). destruct not_star as (N1 & N2 & N3).
  set (U := P +:+ T). assert (HU : stops U /\ (forall r, U <> String "*"%char r) /\ (forall r, U <> String "["%char r)).
  { unfold U. destruct HP as [->|(n & -> & _)]; [by rewrite sapp_nil_l|]. rewrite !sapp_assoc. change ("." +:+ ?x) with (String "." x). split; [|done].
    split; [|apply dig_no; by vm_compute]. apply flag_no; by vm_compute. }
  destruct HU as (HU1 & HU2 & HU3).
  rewrite !sapp_assoc. fold U. unfold one_verb. rewrite flags_app by done.
  destruct (flags_digits D U HD HU1) as (D' & -> & HD' & HL'). 
  rewrite arg_none by (by apply digit_not).
  assert (HN : a_number D') by (split; [done|lia]).
  rewrite (width_none _ U); [|by apply digit_not|by apply parsenum_number|].
  2:{ destruct D'; [by rewrite sapp_nil_l|by rewrite sapp_cons]. }
  assert (EP : prec_part U false true = ("", false, true, T)).
  { unfold U. destruct HP as [->|(n & -> & Hn)].
    - rewrite sapp_nil_l. unfold prec_part. destruct T as [|c T]; [done|]. rewrite decide_False; [done|]. intros ->. by apply (HT4 T).
    - rewrite !sapp_assoc. change ("." +:+ ?x) with (String "." x). unfold prec_part. rewrite decide_True by done.
      rewrite arg_none by (apply digit_not; [apply Hn|done..]). cbn [andb negb].
      destruct (parsenum_number n T Hn HT1) as [b Eb].
      destruct (n +:+ T) as [|c' r'] eqn:E.
      + destruct n; [rewrite sapp_nil_l in E; by rewrite E|by rewrite sapp_cons in E].
      + rewrite decide_False; [by rewrite Eb|]. intros ->. apply (digit_not n "*"%char T (proj1 Hn) HT1 N1 HT2 r'). done. }
  rewrite EP. rewrite arg_none by done. cbn [andb]. destruct (verb_part T true) as [o r]. done.
Qed.
Lemma verb_ends v rest : a_verb v -> ends (String v rest).
Proof. intros (_ & H1 & H2 & H3 & H4 & H5). split; [done|]. split_and!; intros r; congruence. Qed.
Lemma C82_verb_main : forall p v rest, a_prefix p -> a_verb v ->
  printf0 ("%" +:+ p +:+ String v rest) = (if decide (v = "%"%char) then "%" else "%!" +:+ String v "(MISSING)") +:+ printf0 rest.
Proof.
  intros p v rest Hp Hv. change ("%" +:+ ?x) with (String cPercent x). rewrite printf_verb, one_prefix by (done || by apply verb_ends).
  unfold verb_part. change cPercent with "%"%char. destruct (decide (v = "%"%char)); [done|].
  assert (E : rune_len (String v rest) = 1).
  { cbn [rune_len]. destruct Hv as (Hv & _). unfold code. apply Nat.ltb_lt in Hv. by rewrite Hv. }
  rewrite E. cbn [sdrop stake]. done.
Qed.
Lemma C82_end_main : forall p, a_prefix p -> printf0 ("%" +:+ p) = "%!(NOVERB)".
Proof.
  intros p Hp. change ("%" +:+ ?x) with (String cPercent x). rewrite printf_verb. rewrite <- (sapp_nil p), one_prefix; [done|done|]. done.
Qed.
Lemma C82_doubled_main : forall s, printf0 (doubled s) = s.
Proof.
  induction s as [|c s IH]; [done|]. cbn [doubled]. destruct (decide (c = "037"%char)) as [->|H].
  - pose proof (C82_verb_main "" "%"%char (doubled s)) as E. rewrite sapp_nil_l in E. change ("%" +:+ String "%" (doubled s)) with (String "037" (String "037" (doubled s))) in E.
    rewrite E.
    + rewrite decide_True by done. change ("%" +:+ ?x) with (String "037" x). by rewrite IH.
    + exists "", "", "". split; [done|]. split; [done|]. split; [split; [done|cbn; lia]|by left].
    + split; [apply Nat.ltb_lt; by vm_compute|]. split; [apply flag_no; by vm_compute|]. split; [apply dig_no; by vm_compute|]. done.
  - by rewrite printf_plain, IH.
Qed.

(** ** Records *)
Definition id_prt (prt : PrintRT) : PrintRT := {| pr_float := @pr_float prt; pr_addr := @pr_addr prt; pr_format := fun s => s |}.
Definition labels (prt : PrintRT) (order : list string) (short : gmap string string) : gmap string string :=
  list_to_map ((fun c => (c, @pr_format prt (default c (short !! c)))) <$> order).
Lemma labels_get prt order short c : c ∈ order -> labels prt order short !! c = Some (@pr_format prt (default c (short !! c))).
Proof.
  intros Hc. unfold labels. induction order as [|a order IH]; [by apply elem_of_nil in Hc|]. rewrite fmap_cons. cbn [list_to_map foldr uncurry].
  destruct (decide (a = c)) as [->|Hn]; [by rewrite lookup_insert|]. rewrite lookup_insert_ne by done. apply IH. by apply elem_of_cons in Hc as [?|?].
Qed.
Lemma print_all_ext {A} (p q : A -> res string) l : (forall x, x ∈ l -> p x = q x) -> print_all p l = print_all q l.
Proof.
  induction l as [|x l IH]; intros H; [done|]. cbn [print_all]. rewrite H by left. rewrite IH; [done|]. intros y Hy. apply H. by right.
Qed.
Lemma print_rows_labels prt h d f short order w i js :
  @print_rows prt h d f short order w i js = @print_rows (id_prt prt) h d f (labels prt order short) order w i js.
Proof.
  revert i. induction js as [|j js IH]; intros i; [done|]. cbn [print_rows]. rewrite IH.
  rewrite (print_all_ext _ (@print_field (id_prt prt) h d f (labels prt order short) j)); [done|].
  intros c Hc. unfold print_field. rewrite (labels_get prt order short c Hc). done.
Qed.
Lemma mapM_ext_in {A B} (f g : A -> option B) l : (forall x, x ∈ l -> f x = g x) -> mapM f l = mapM g l.
Proof. intros H. apply Forall_mapM_ext. by apply Forall_forall. Qed.
Lemma record_line_ext flt other t l1 l2 names w pos i : (forall c, c ∈ names -> l1 c = l2 c) ->
  record_line flt other t l1 names w pos i = record_line flt other t l2 names w pos i.
Proof.
  intros H. unfold record_line. destruct (pos !! i) as [j|]; [|done]. cbn [mbind option_bind].
  assert (E : mapM (fun c => col ← named t c; v ← col !! i; s ← shown flt other t c v; Some (" " +:+ l1 c +:+ ":" +:+ s)) names =
              mapM (fun c => col ← named t c; v ← col !! i; s ← shown flt other t c v; Some (" " +:+ l2 c +:+ ":" +:+ s)) names).
  { apply mapM_ext_in. intros c Hc. by rewrite H. }
  by rewrite E.
Qed.
Lemma C82_any_names_main : forall (base : PrintRT) h d n fmt short, wf h d -> let t := abs h d in
  exists names w, in_order (fun c => exists k, is_Some (t_cols t !! (k, c))) names /\
    (w = if decide (10 < Z.of_nat (rows_shown n t) <= 10000)%Z then String.length (pretty (Z.of_nat (rows_shown n t - 1))) else 0) /\
    @print_records (fmt_prt base) n fmt short d h =
      match mapM (record_line (@pr_float base (spaced fmt)) (@pr_addr base) t (fun c => printf0 (default c (short !! c))) names w (inds d)) (seq 0 (rows_shown n t)) with
      | Some lines => Ok (text lines, h)
      | None => Panic
      end.
Proof.
  intros base h d n fmt short W t. set (order := sort_strings (elements (names (mp h (r_maps (d_raw d)))))).
  destruct (sort_in_order (names (mp h (r_maps (d_raw d))))) as (A & B & C). fold order in A, B, C.
  exists order, (int_width (Z.of_nat (rows_shown n t) - 1)). split; [|split].
  - split; [done|]. split; [done|]. intros c. rewrite C. apply names_any.
  - destruct (decide _) as [H|H].
    + rewrite <- int_width_length by lia. f_equal. lia.
    + unfold int_width. repeat destruct (decide _); try done; lia.
  - unfold print_records. rewrite (num_printed_rows n d h). fold t order. change (float_format fmt) with (spaced fmt).
    assert (HL : length (take (rows_shown n t) (inds d)) = rows_shown n t).
    { rewrite take_length. destruct W as [N W]. rewrite (wfn_inds_length _ _ _ W). change (num_rows d) with (t_rows t). unfold rows_shown. destruct (decide _); lia. }
    rewrite print_rows_labels. rewrite (@print_rows_text (id_prt (fmt_prt base))).
    + rewrite HL. fold t. cbn [pr_float pr_addr id_prt fmt_prt].
      rewrite (mapM_ext_in _ (record_line (@pr_float base (spaced fmt)) (@pr_addr base) t (fun c => printf0 (default c (short !! c))) order
        (int_width (Z.of_nat (rows_shown n t) - 1)) (inds d))).
      * by destruct (mapM _ (seq 0 (rows_shown n t))).
      * intros i _. apply record_line_ext. intros c Hc. by rewrite labels_get.
    + done.
    + intros c Hc. by apply C.
    + done.
    + intros a j Hj. by apply lookup_take_Some in Hj as [? _].
Qed.
(** ** Cases *)
Section wit.
Existing Instance ex_rt.
Definition wf3 : dframe * heap := run_df (let* r := new_raw in
  let* r := b_add KInt r "% of total" [VInt 3] in
  let* r := b_add KInt r "10%" [VInt 4] in
  let* r := b_add KInt r "x%%y" [VInt 5] in to_dataframe r) heap0.
Lemma C82_names_check_main : wf wf3.2 wf3.1 /\
  @print_records (fmt_prt ex_prt) 1 "" ∅ wf3.1 wf3.2 = Ok (text ["[0:0] %!o(MISSING)f total: 3 10%!(NOVERB): 4 x%y: 5"; line_end], wf3.2) /\
  a_prefix " " /\ a_prefix "-12.5" /\ a_verb "o"%char /\ printf0 "% of total" = "%!o(MISSING)f total" /\ printf0 "%-12.5" = "%!(NOVERB)" /\
  printf0 "%[2]d" = "%!d(BADINDEX)" /\ printf0 "%*.*d" = "%!(BADWIDTH)%!(BADPREC)%!d(MISSING)".
Proof.
  split; [apply (wf_check_sound _ _ 1); by vm_compute|]. split; [by vm_compute|].
  split. { exists " ", "", "". split; [done|]. split; [split; [|done]; apply flag_iff; by vm_compute|]. split; [split; [done|cbn; lia]|by left]. }
  split. { exists "-", "12", ".5". split; [done|]. split; [split; [|done]; apply flag_iff; by vm_compute|].
    assert (HD : forall c, (48 <=? nat_of_ascii c) && (nat_of_ascii c <=? 57) = true -> a_digit c).
    { intros c E. apply andb_true_iff in E as [E1 E2]. split; by apply Nat.leb_le. }
    split; [|right; exists "5"; split; [done|]]; (split; [|cbn; lia]); repeat (split; [apply HD; by vm_compute|]); done. }
  split. { split; [apply Nat.ltb_lt; by vm_compute|]. split; [apply flag_no; by vm_compute|]. split; [apply dig_no; by vm_compute|]. done. }
  by vm_compute.
Qed.
Definition wf4 : dframe * heap := run_df (let* r := new_raw in
  let* r := b_add KInt r "%%" [VInt 2] in
  let* r := b_add KInt r "% %" [VInt 1] in to_dataframe r) heap0.
Lemma C82_same_label_refuted_main : exists d h, wf h d /\ t_cols (abs h d) !! (KInt, "% %") = Some [VInt 1] /\ t_cols (abs h d) !! (KInt, "%%") = Some [VInt 2] /\
  forall base, @print_records (fmt_prt base) 1 "" ∅ d h = Ok ("[0:0] %: 1 %: 2" +:+ line_end, h).
Proof.
  exists wf4.1, wf4.2. split; [apply (wf_check_sound _ _ 1); by vm_compute|]. split; [by vm_compute|]. split; [by vm_compute|]. intros base. by vm_compute.
Qed.
End wit.
