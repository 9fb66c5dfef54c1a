(** C88: the numbers of fitted structures are float64; a runtime with exact_numbers. *)
From Coq Require Import Reals.
From Flocq Require Import Core BinarySingleNaN.
From Verif Require Import M_Json.
From Verif Require Import P_Float P_FloatEx P_AutoMain.
From Verif Require Import Spec_Json P_CsvText P_Csv4 P_Json P_Json2 P_Check.

Local Instance Hprec3 : FLX.Prec_gt_0 53 := eq_refl.
Local Instance Hmax3 : Prec_lt_emax 53 1024 := eq_refl.
(** ** Operations on float64 give float64 *)
Lemma is_f64_add x y : is_f64 x -> is_f64 y -> is_f64 (f64_add x y).
Proof. intros Hx Hy. unfold is_f64. rewrite (f64_add_equiv x y Hx Hy). apply valid_binary_B2SF. Qed.
Lemma is_f64_sub x y : is_f64 x -> is_f64 y -> is_f64 (f64_sub x y).
Proof. intros Hx Hy. unfold is_f64. rewrite (f64_sub_equiv x y Hx Hy). apply valid_binary_B2SF. Qed.
Lemma is_f64_mul x y : is_f64 x -> is_f64 y -> is_f64 (f64_mul x y).
Proof. intros Hx Hy. unfold is_f64. rewrite (f64_mul_equiv x y Hx Hy). apply valid_binary_B2SF. Qed.
Lemma is_f64_div x y : is_f64 x -> is_f64 y -> is_f64 (f64_div x y).
Proof. intros Hx Hy. unfold is_f64. rewrite (f64_div_equiv x y Hx Hy). apply valid_binary_B2SF. Qed.
Lemma is_f64_sqrt x : is_f64 x -> is_f64 (SFsqrt 53 1024 x).
Proof. intros Hx. unfold is_f64. rewrite (f64_sqrt_equiv x Hx). apply valid_binary_B2SF. Qed.
Lemma is_f64_Z z : is_f64 (f64_of_Z z).
Proof. unfold is_f64, f64_of_Z. rewrite binary_normalize_equiv. apply valid_binary_B2SF. Qed.
Lemma is_f64_opp x : is_f64 x -> is_f64 (SFopp x).
Proof. by destruct x. Qed.

(** ** Fit *)
Lemma sum_f64 (vs : list f64) : Forall is_f64 vs -> is_f64 (sum_n f64_arith vs).1.
Proof.
  intros H. unfold sum_n. assert (G : forall l (a : f64 * Z), Forall is_f64 l -> is_f64 a.1 ->
    is_f64 (foldl (fun (p : num f64_arith * Z) v => if a_isnan f64_arith v then p else (a_add f64_arith p.1 v, (p.2 + 1)%Z)) a l).1).
  { induction l as [|v l IH]; intros a Hl Ha; [done|]. apply Forall_cons in Hl as [Hv Hl]. cbn [foldl].
    destruct (a_isnan f64_arith v); apply IH; try done. by apply is_f64_add. }
  apply G; [done|apply is_f64_Z].
Qed.
Lemma mean_f64 (vs : list f64) : Forall is_f64 vs -> is_f64 (mean_of f64_arith vs).
Proof. intros H. pose proof (sum_f64 vs H) as HS. unfold mean_of. destruct (sum_n f64_arith vs) as [s n]. apply is_f64_div; [exact HS|apply is_f64_Z]. Qed.
Lemma squares_f64 (vs : list f64) m : Forall is_f64 vs -> is_f64 m -> is_f64 (square_sum f64_arith m vs).
Proof.
  intros H Hm. unfold square_sum. assert (G : forall l (a : f64), Forall is_f64 l -> is_f64 a ->
    is_f64 (foldl (fun s v => if a_isnan f64_arith v then s
       else a_add f64_arith s (a_mul f64_arith (a_sub f64_arith v m) (a_sub f64_arith v m))) a l)).
  { induction l as [|v l IH]; intros a Hl Ha; [done|]. apply Forall_cons in Hl as [Hv Hl]. cbn [foldl].
    destruct (a_isnan f64_arith v); apply IH; try done. apply is_f64_add; [done|]. by apply is_f64_mul; apply is_f64_sub. }
  apply G; [done|apply is_f64_Z].
Qed.
Lemma scale_f64 (s : f64) n : is_f64 s -> is_f64 (scale_of f64_arith s n).
Proof.
  intros Hs. unfold scale_of. destruct (a_eq _ _ _); apply is_f64_sqrt, is_f64_div; try apply is_f64_Z; [|done]. apply is_f64_add; [done|apply is_f64_Z].
Qed.
Lemma min_max_f64 (vs : list f64) : Forall is_f64 vs -> is_f64 (min_max f64_arith vs).1 /\ is_f64 (min_max f64_arith vs).2.
Proof.
  intros H. unfold min_max.
  assert (G : forall (f : f64 * f64 -> f64 -> f64 * f64) l (a : f64 * f64),
    (forall a v, is_f64 a.1 -> is_f64 a.2 -> is_f64 v -> is_f64 (f a v).1 /\ is_f64 (f a v).2) ->
    Forall is_f64 l -> is_f64 a.1 -> is_f64 a.2 -> is_f64 (foldl f a l).1 /\ is_f64 (foldl f a l).2).
  { intros f l. induction l as [|v l IH]; intros a Hf Hl H1 H2; [done|]. apply Forall_cons in Hl as [Hv Hl]. cbn [foldl].
    destruct (Hf a v H1 H2 Hv). by apply IH. }
  match goal with |- is_f64 (foldl ?f ?a ?l).1 /\ _ => apply (G f l a) end; [|done|done|done].
  intros [mn mx] v H1 H2 H3. cbn [fst snd] in *. repeat case_match; cbn [fst snd]; by split.
Qed.
Lemma fit_col_f64 opt (vs : list f64) : Forall is_f64 vs ->
  (forall x, (fit_col f64_arith opt vs).1 = Some x -> is_f64 x) /\ (forall x, (fit_col f64_arith opt vs).2 = Some x -> is_f64 x).
Proof.
  intros H. pose proof (min_max_f64 vs H) as [Hm HM]. pose proof (mean_f64 vs H) as Hmean. unfold fit_col.
  destruct (so_minmax opt); [destruct (min_max f64_arith vs) as [mn mx]|destruct (so_scaling opt), (so_centering opt)]; cbn [fst snd orb] in *;
    split; intros x Hx; try discriminate Hx; injection Hx as <-; first [by apply is_f64_opp | by apply is_f64_sub | by apply scale_f64, squares_f64].
Qed.

(** The float cells are float64. *)
Definition good_floats (t : table) : Prop := forall c, Forall is_f64 (t_floats t c).
Lemma auto_fitted_nums opt t p : auto_fitted opt t p -> good_floats t -> auto_nums is_f64 p.
Proof.
  intros HA HG. split.
  - intros f Hf c x Hx. pose proof (af_imputer _ _ _ HA) as H. rewrite Hf in H. destruct H as [_ H]. destruct (H c) as [H1 H2].
    assert (Hu : float_used opt t c) by (apply H1, elem_of_dom; by eexists). rewrite H2 in Hx by done. injection Hx as <-. apply mean_f64, HG.
  - intros s Hs. pose proof (af_scaler _ _ _ HA) as H. rewrite Hs in H. destruct H as [_ H].
    split; intros c x Hx; destruct (H c) as (H1 & H2 & H3); destruct (fit_col_f64 auto_sc (t_floats t c) (HG c)) as [F1 F2].
    + apply F1. etrans; [|exact Hx]. symmetry. apply H3, H1, elem_of_dom. by eexists.
    + apply F2. etrans; [|exact Hx]. symmetry. apply H3, H2, elem_of_dom. by eexists.
Qed.

(** ** A runtime with [exact_numbers]: the mantissa is written after 1., the exponent is binary. *)
Fixpoint split_e (s : string) : string * string :=
  match s with
  | "" => ("", "")
  | String c r => if decide (c = "e"%char) then ("", r) else let '(a, b) := split_e r in (String c a, b)
  end.
Definition toy_fmt (x : f64) : string :=
  match x with
  | S754_zero s => if s then "-0" else "0"
  | S754_finite s m e => (if s then "-1." else "1.") +:+ pretty (N.pos m) +:+ "e" +:+ pretty e
  | _ => ""
  end.
Definition toy_back (s : bool) (t : string) : option f64 :=
  let '(a, b) := split_e t in
  match parse_int a, parse_int b with Some (Zpos m), Some e => Some (S754_finite s m e) | _, _ => None end.
Definition toy_parse (t : string) : option f64 :=
  match t with
  | "0" => Some (S754_zero false)
  | "-0" => Some (S754_zero true)
  | String "1" (String "." r) => toy_back false r
  | String "-" (String "1" (String "." r)) => toy_back true r
  | _ => None
  end.
Definition ex_jrt : JsonRT := Build_JsonRT toy_fmt toy_parse.

Fixpoint all_digits (s : string) : Prop := match s with "" => True | String c s => brange 48 (code c) 57 = true /\ all_digits s end.
Lemma digits_N_go x : forall s, all_digits s -> s <> "" \/ x <> 0%N -> all_digits (pretty_N_go x s) /\ pretty_N_go x s <> "".
Proof.
  induction (N.lt_wf_0 x) as [x _ IH]; intros s Hs Hne. destruct (decide (x = 0)%N) as [->|Hx]; [rewrite pretty_N_go_0; tauto|].
  rewrite pretty_N_go_step by lia. apply IH; [apply N.div_lt; lia| |by left]. split; [|done].
  assert (x `mod` 10 < 10)%N as Hm by (apply N.mod_lt; lia). revert Hm. generalize (x `mod` 10)%N. intros y Hy.
  assert (y = 0 \/ y = 1 \/ y = 2 \/ y = 3 \/ y = 4 \/ y = 5 \/ y = 6 \/ y = 7 \/ y = 8 \/ y = 9)%N as H by lia.
  destruct H as [->|[->|[->|[->|[->|[->|[->|[->|[->| ->]]]]]]]]]; by vm_compute.
Qed.
Lemma digits_N (x : N) : all_digits (pretty x) /\ pretty x <> "".
Proof. unfold pretty, pretty_N. destruct (decide (x = 0)%N); [by vm_compute|]. apply digits_N_go; [done|by right]. Qed.
Lemma digit_not_e c : brange 48 (code c) 57 = true -> c <> "e"%char /\ c <> "."%char.
Proof. intros H. split; intros ->; by vm_compute in H. Qed.
Lemma split_digits a r : all_digits a -> split_e (a +:+ String "e" r) = (a, r).
Proof.
  induction a as [|c a IH]; intros H; [by rewrite sapp_nil_l|]. destruct H as [H1 H2]. rewrite sapp_cons. cbn [split_e].
  rewrite decide_False by (by apply digit_not_e). by rewrite IH.
Qed.
Lemma run_frac a q r : all_digits a -> a <> "" -> q = NDot \/ q = NFrac -> num_run q (a +:+ r) = num_run NFrac r.
Proof.
  revert q. induction a as [|c a IH]; intros q H Hne Hq; [done|]. destruct H as [H1 H2]. rewrite sapp_cons. cbn [num_run].
  assert (E : num_step q c = Some NFrac) by (destruct Hq as [-> | ->]; unfold num_step; by rewrite H1). rewrite E.
  destruct a as [|c' a]; [by rewrite sapp_nil_l|]. apply IH; [done|done|by right].
Qed.
Lemma run_exp a q : all_digits a -> a <> "" -> q = NE \/ q = NSign \/ q = NExp -> num_run q a = Some NExp.
Proof.
  revert q. induction a as [|c a IH]; intros q H Hne Hq; [done|]. destruct H as [H1 H2]. cbn [num_run].
  assert (E : num_step q c = Some NExp) by (destruct Hq as [-> | [-> | ->]]; unfold num_step; by rewrite H1). rewrite E.
  destruct a as [|c' a]; [done|]. apply IH; [done|done|tauto].
Qed.
Lemma run_exp_Z (e : Z) : num_run NE (pretty e) = Some NExp.
Proof.
  destruct e as [|p|p].
  - done.
  - destruct (digits_N (N.pos p)) as [H1 H2]. change (pretty (Z.pos p)) with (pretty (N.pos p)). apply run_exp; [done..|by left].
  - destruct (digits_N (N.pos p)) as [H1 H2]. change (pretty (Z.neg p)) with (String "-"%char (pretty (N.pos p))). cbn [num_run].
    change (num_step NE "-"%char) with (Some NSign). cbv iota beta. apply run_exp; [done..|tauto].
Qed.
Lemma f64_bounds s m e : is_f64 (S754_finite s m e) -> is_int64 (Z.pos m) /\ is_int64 e.
Proof.
  unfold is_f64. cbn [valid_binary]. unfold bounded. intros [H1 H2]%andb_true_iff. apply Z.leb_le in H2. unfold canonical_mantissa in H1. apply Zeq_bool_eq in H1.
  rewrite Digits.Zpos_digits2_pos in H1. unfold SpecFloat.fexp, SpecFloat.emin in H1.
  assert (Hd : (Digits.Zdigits radix2 (Z.pos m) <= 53)%Z) by lia.
  assert (Hm : (Z.pos m < 2 ^ 53)%Z).
  { pose proof (Digits.Zdigits_correct radix2 (Z.pos m)) as [_ Hc]. rewrite Z.abs_eq in Hc by lia. eapply Z.lt_le_trans; [exact Hc|].
    change (2 ^ 53)%Z with (Zpower radix2 53). apply Zpower_le. lia. }
  unfold is_int64. pose proof (Digits.Zdigits_ge_0 radix2 (Z.pos m)). split; [|lia]. assert ((2 ^ 53 < 2 ^ 63)%Z) by lia. lia.
Qed.
Lemma toy_exact : @exact_numbers ex_jrt.
Proof.
  intros x Hx Hf. cbn [fmt_num parse_num ex_jrt]. destruct x as [b|b| |s m e]; [destruct b; split; by vm_compute|by destruct (proj2 Hf b)|by destruct (proj1 Hf)|].
  destruct (f64_bounds s m e Hx) as [Hm He]. destruct (digits_N (N.pos m)) as [D1 D2].
  assert (P1 : parse_int (pretty (N.pos m)) = Some (Z.pos m)) by (by apply (parse_pretty_Z (Z.pos m))).
  assert (P2 : parse_int (pretty e) = Some e) by (by apply parse_pretty_Z).
  assert (B : toy_back s (pretty (N.pos m) +:+ "e" +:+ pretty e) = Some (S754_finite s m e)).
  { unfold toy_back. rewrite sapp_cons, sapp_nil_l, split_digits by done. by rewrite P1, P2. }
  unfold toy_fmt. assert (Q : "e" +:+ pretty e = String "e" (pretty e)) by (by rewrite sapp_cons, sapp_nil_l). rewrite Q in B |- *.
  generalize dependent (pretty (N.pos m)). intros t D1 D2 P1 B. split.
  - unfold json_number. assert (R : num_run NDot (t +:+ String "e" (pretty e)) = Some NExp).
    { rewrite run_frac by (first [done|by left]). cbn [num_run]. change (num_step NFrac "e"%char) with (Some NE). cbv iota beta. apply run_exp_Z. }
    destruct s; rewrite !sapp_cons, sapp_nil_l; cbn [num_run].
    + change (num_step NStart "-"%char) with (Some NNeg). cbv iota beta. change (num_step NNeg "1"%char) with (Some NInt). cbv iota beta.
      change (num_step NInt "."%char) with (Some NDot). cbv iota beta. by rewrite R.
    + change (num_step NStart "1"%char) with (Some NInt). cbv iota beta. change (num_step NInt "."%char) with (Some NDot). cbv iota beta. by rewrite R.
  - destruct s; rewrite !sapp_cons, sapp_nil_l; exact B.
Qed.
