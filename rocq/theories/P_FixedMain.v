(** C98 Floats printed with a fixed number of decimals. *)
From Coq Require Import Reals Psatz.
From Flocq Require Import Core BinarySingleNaN.
From Verif Require Import M_Fixed.
From Verif Require Import P_Exec.
From stdpp Require Import strings pretty list.
From Verif Require Import Spec_Print P_PrintMain P_Auto4 P_Float P_FloatEx Spec_Json Spec_Strconv Spec_Fixed P_Csv4 P_Strconv P_Strconv2 P_Strconv3 P_Strconv4 P_Strconv7 P_Fixed.
From Coq Require Import Strings.Ascii.
From Verif Require Import P_Base P_Check.
From Verif Require Import Spec_Json.
Local Open Scope Z_scope.

Lemma C98_printed_main p x s : 0 <= p -> s = fmt_prec p x <-> shows p x s.
Proof.
  intros Hp. split; [intros ->; by apply fmt_prec_shows|]. intros H. apply (shows_unique p x); [done|]. by apply fmt_prec_shows.
Qed.
Lemma unit_pos p : (0 < powerRZ 10 (- p))%R.
Proof. apply powerRZ_10_pos. Qed.
Lemma unit_inv p r : (r * powerRZ 10 p * powerRZ 10 (- p) = r)%R.
Proof. rewrite Rmult_assoc, <- powerRZ_add by lra. replace (p + - p) with 0 by lia. cbn [powerRZ]. ring. Qed.
Lemma C98_bound_main p r : (Rabs (to_decimals p r - r) <= / 2 * powerRZ 10 (- p))%R /\
  forall z, (Rabs (to_decimals p r - r) <= Rabs (IZR z * powerRZ 10 (- p) - r))%R.
Proof.
  assert (E : forall z, (Rabs (IZR z * powerRZ 10 (- p) - r) = Rabs (r * powerRZ 10 p - IZR z) * powerRZ 10 (- p))%R).
  { intros z. rewrite <- (unit_inv p r) at 1. rewrite <- Rmult_minus_distr_r, Rabs_mult, (Rabs_pos_eq (powerRZ 10 (- p))) by (apply Rlt_le, unit_pos).
    by rewrite Rabs_minus_sym. }
  unfold to_decimals. pose proof (unit_pos p) as U. split.
  - rewrite E. apply Rmult_le_compat_r; [lra|]. apply Znearest_half.
  - intros z. rewrite !E. apply Rmult_le_compat_r; [lra|].
    pose proof (Znearest_half (fun x => negb (Z.even x)) (r * powerRZ 10 p)) as H.
    destruct (Rle_or_lt (/ 2) (Rabs (r * powerRZ 10 p - IZR z))) as [L|L]; [lra|].
    rewrite (Znearest_imp _ _ z L). lra.
Qed.
Lemma shows_finite p x s : finite x -> shows p x s ->
  exists d, s = decimal_text d /\ decimal_ok d /\ plain_int (de_int d) /\ de_exp d = None /\ de_sign d = (if negative x then "-" else "") /\
    match de_frac d with None => p = 0 | Some f => 0 < p /\ len f = p end /\ decimal_value d = to_decimals p (real_of x).
Proof. intros [F1 F2] H. destruct x as [b|b| |b m e]; cbn [shows] in H; [done|by destruct (F2 b)|done|done]. Qed.
Lemma finite_shows p x s : finite x -> (exists d, s = decimal_text d /\ decimal_ok d /\ plain_int (de_int d) /\ de_exp d = None /\ de_sign d = (if negative x then "-" else "") /\
    match de_frac d with None => p = 0 | Some f => 0 < p /\ len f = p end /\ decimal_value d = to_decimals p (real_of x)) -> shows p x s.
Proof. intros [F1 F2] H. destruct x as [b|b| |b m e]; cbn [shows]; [done|by destruct (F2 b)|done|done]. Qed.

(** The value of a text. *)
Fixpoint undot (s : string) : string :=
  match s with "" => "" | String c r => if decide (c = "."%char) then undot r else String c (undot r) end.
Lemma undot_digits s t : digits s -> undot (s +:+ t) = s +:+ undot t.
Proof.
  induction s as [|c s IH]; intros H; [done|]. rewrite !P_Strconv2.app_cons. cbn [undot]. destruct H as [Hc H].
  destruct (decide (c = "."%char)) as [-> |_]; [by vm_compute in Hc; lia|]. by rewrite IH.
Qed.
Lemma undot_text d : decimal_ok d -> de_exp d = None ->
  exists b, decimal_text d = de_sign d +:+ b /\ value (undot b) = value (de_int d +:+ default "" (de_frac d)) /\
    (plain_int (de_int d) -> forall r, b <> "-" +:+ r).
Proof.
  intros (_ & Hi & Hf & _) HX. unfold decimal_text. rewrite HX. eexists. split; [reflexivity|]. rewrite P_Strconv2.app_nil_r'. split.
  - rewrite undot_digits by done. f_equal. f_equal. destruct (de_frac d) as [f|]; cbn [default]; [|done]. unfold Datatypes.id in *. cbn [default] in Hf.
    rewrite P_Strconv2.app_cons, P_Strconv2.app_nil. cbn [undot]. rewrite decide_True by done. rewrite <- (P_Strconv2.app_nil_r' f) at 1. rewrite undot_digits by done. apply P_Strconv2.app_nil_r'.
  - intros Hp r E. destruct Hp as [Hp|(c & q & Hp & _)]; rewrite Hp in E; rewrite ?P_Strconv2.app_cons in E; [done|].
    rewrite P_Strconv2.app_nil in E. injection E as -> _. rewrite Hp in Hi. destruct Hi as [Hi _]. vm_compute in Hi. lia.
Qed.
Lemma C98_same_main p x y : 0 <= p -> finite x -> finite y ->
  fmt_prec p x = fmt_prec p y <-> negative x = negative y /\ to_decimals p (real_of x) = to_decimals p (real_of y).
Proof.
  intros Hp Fx Fy. split.
  - intros E. destruct (shows_finite p x _ Fx (fmt_prec_shows p x Hp)) as (d & Td & Od & Pd & Xd & Sd & Gd & Vd).
    destruct (shows_finite p y _ Fy (fmt_prec_shows p y Hp)) as (d' & Td' & Od' & Pd' & Xd' & Sd' & Gd' & Vd').
    rewrite Td, Td' in E. clear Td Td'. destruct (undot_text d Od Xd) as (b & Eb & Ub & Nb). destruct (undot_text d' Od' Xd') as (b' & Eb' & Ub' & Nb').
    rewrite Eb, Eb', Sd, Sd' in E.
    assert (EN : negative x = negative y /\ b = b').
    { destruct (negative x), (negative y); rewrite ?P_Strconv2.app_nil in E; [| | |done].
      - rewrite !P_Strconv2.app_cons, !P_Strconv2.app_nil in E. injection E as ->. done.
      - exfalso. by apply (Nb' Pd' b).
      - exfalso. by apply (Nb Pd b'). }
    destruct EN as [EN <-]. split; [done|]. rewrite <- Vd, <- Vd'. unfold decimal_value, minus_sign, decimal_exp.
    rewrite Xd, Xd', Sd, Sd', <- Ub, <- Ub', EN. do 2 f_equal.
    assert (L : len (default "" (de_frac d)) = p) by (destruct (de_frac d); cbn [default String.length]; unfold Datatypes.id; lia).
    assert (L' : len (default "" (de_frac d')) = p) by (destruct (de_frac d'); cbn [default String.length]; unfold Datatypes.id; lia). lia.
  - intros [En Ed]. apply (shows_unique p y); [|by apply fmt_prec_shows].
    destruct (shows_finite p x _ Fx (fmt_prec_shows p x Hp)) as (d & Hd). apply finite_shows; [done|]. exists d. rewrite <- En, <- Ed. exact Hd.
Qed.
Lemma C98_apart_main p x y : 0 <= p -> finite x -> finite y -> (powerRZ 10 (- p) < Rabs (real_of x - real_of y))%R -> fmt_prec p x <> fmt_prec p y.
Proof.
  intros Hp Fx Fy H E. apply C98_same_main in E as [_ E]; try done.
  destruct (C98_bound_main p (real_of x)) as [B1 _]. destruct (C98_bound_main p (real_of y)) as [B2 _]. rewrite E in B1.
  revert B1 B2 H. unfold Rabs. repeat destruct (Rcase_abs _); lra.
Qed.

(** Reading the text back. *)
Lemma C98_read_main p x : 0 <= p -> finite x -> rounded (negative x) (to_decimals p (real_of x)) (parse_f64 (fmt_prec p x)).
Proof.
  intros Hp Fx. destruct (shows_finite p x _ Fx (fmt_prec_shows p x Hp)) as (d & Td & Od & Pd & Xd & Sd & Gd & Vd).
  rewrite Td, <- Vd. assert (E : negative x = minus_sign d) by (unfold minus_sign; rewrite Sd; by destruct (negative x)). rewrite E.
  apply parse_rounded; [done|]. unfold decimal_exp. rewrite Xd. lia.
Qed.
Lemma C98_exact_main p x : 1074 <= p -> is_f64 x -> finite x ->
  to_decimals p (real_of x) = real_of x /\ parse_f64 (fmt_prec p x) = Some x.
Proof.
  intros Hp Hx Fx.
  assert (E : to_decimals p (real_of x) = real_of x).
  { unfold to_decimals. assert (EZ : exists z, (real_of x * powerRZ 10 p = IZR z)%R).
    { destruct Fx as [F1 F2]. destruct x as [b|b| |b m e]; [|by destruct (F2 b)|done|].
      - exists 0. unfold real_of. cbn [SF2R]. ring.
      - apply f64_bounds in Hx as [He _]. exists ((if b then -1 else 1) * Zpos m * (5 ^ p * 2 ^ (p + e))).
        change (real_of (S754_finite b m e)) with (f64_R (S754_finite b m e)). rewrite f64_R_finite, <- IZR_pow10 by lia.
        rewrite !mult_IZR. change 10 with (5 * 2). rewrite Z.pow_mul_l, mult_IZR.
        assert (E2 : IZR (2 ^ (p + e)) = (IZR (2 ^ p) * bpow radix2 e)%R).
        { change 2 with (radix_val radix2). rewrite !IZR_Zpower by lia. by rewrite bpow_plus. }
        rewrite E2. destruct b; cbn [sgn]; ring. }
    destruct EZ as [z EZ]. rewrite EZ, (Zrnd_IZR ZnearestE), <- EZ. apply unit_inv. }
  split; [done|]. destruct (C98_read_main p x ltac:(lia) Fx) as [H _]. rewrite E in H. pose proof (proj1 (is_f64_finite x) Fx) as F'.
  destruct (f64_format x Hx F') as [R1 R2]. rewrite rnd64_even in R1. change (f64_R x) with (real_of x) in *. rewrite R1 in H.
  destruct (H R2) as (y & -> & Hy & Fy & Ey & Ny). f_equal. apply f64_unique; try done; by apply is_f64_finite.
Qed.
(** A NaN and the infinities are read back. *)
Lemma C98_special_main p x : ~ finite x -> is_f64 x -> parse_f64 (fmt_prec p x) = Some x.
Proof. destruct x as [b|b| |b m e]; intros F _; first [by destruct F; split|by destruct b|done]. Qed.

(** PrintHead and PrintRecords *)
Lemma go_float base fmt p : asks fmt p -> forall x s, @pr_float (go_prt base) (spaced fmt) x = " " +:+ s <-> shows p x s.
Proof.
  intros H x s. assert (E : @pr_float (go_prt base) (spaced fmt) x = " " +:+ fmt_prec p x).
  { unfold spaced. destruct (decide (fmt = "")) as [-> |N].
    - destruct H as [[_ ->]|[[? _]|(ds & E & _)]]; [done|done|done].
    - apply float_prec_asks in H; [|done]. rewrite P_Strconv2.app_cons, P_Strconv2.app_nil. cbn [pr_float go_prt]. rewrite decide_True by done. by rewrite H. }
  rewrite E, <- C98_printed_main by (by eapply asks_nonneg). rewrite !P_Strconv2.app_cons, !P_Strconv2.app_nil. split; [by intros [= ->]|by intros ->].
Qed.
Section print.
Context (base : PrintRT).
Let prt : PrintRT := go_prt base.
Existing Instance prt.
Lemma C98_head_main h d n fmt p : wf h d -> asks fmt p -> let t := abs h d in
  exists flt lf li lb lo, (forall x s, flt x = " " +:+ s <-> shows p x s) /\
    in_order (fun c => is_Some (t_cols t !! (KFloat, c))) lf /\ in_order (fun c => is_Some (t_cols t !! (KInt, c))) li /\
    in_order (fun c => is_Some (t_cols t !! (KBool, c))) lb /\ in_order (fun c => is_Some (t_cols t !! (KObj, c))) lo /\
    @print_head (go_prt base) n fmt d h =
      match mapM (column_line flt (@pr_addr base) t (rows_shown n t))
                 ((pair KFloat <$> lf) ++ (pair KInt <$> li) ++ (pair KBool <$> lb) ++ (pair KObj <$> lo)) with
      | Some lines => Ok (text lines, h)
      | None => Panic
      end.
Proof.
  intros W H t. exists (@pr_float (go_prt base) (spaced fmt)).
  destruct (@C81_head_main (go_prt base) h d n fmt W) as (lf & li & lb & lo & A). exists lf, li, lb, lo. split; [by apply go_float|exact A].
Qed.
Lemma C98_records_partial_main h d n fmt p short : (forall s, no_percent s -> @pr_format base s = s) -> wf h d -> asks fmt p -> let t := abs h d in
  (forall k c, is_Some (t_cols t !! (k, c)) -> no_percent (default c (short !! c))) ->
  exists flt names w, (forall x s, flt x = " " +:+ s <-> shows p x s) /\
    in_order (fun c => exists k, is_Some (t_cols t !! (k, c))) names /\
    (w = if decide (10 < Z.of_nat (rows_shown n t) <= 10000)%Z then String.length (pretty (Z.of_nat (rows_shown n t - 1))) else 0%nat) /\
    @print_records (go_prt base) n fmt short d h =
      match mapM (record_line flt (@pr_addr base) t (fun c => default c (short !! c)) names w (inds d)) (seq 0 (rows_shown n t)) with
      | Some lines => Ok (text lines, h)
      | None => Panic
      end.
Proof.
  intros Hb W H t Hn. exists (@pr_float (go_prt base) (spaced fmt)).
  destruct (@C82_records_partial_main (go_prt base) h d n fmt short Hb W Hn) as (names & w & A). exists names, w. split; [by apply go_float|exact A].
Qed.
End print.

(** Cases. *)
Definition tenth : f64 := scaled 10 false 1 (-1).
Definition half_way : list f64 := [scaled 10 false 125 (-3); scaled 10 false 375 (-3); scaled 10 true 625 (-3); scaled 10 true 1 (-3)].
Lemma C98_check_main :
  fmt_prec 2 <$> half_way = ["0.12"; "0.38"; "-0.62"; "-0.00"] /\ Forall (fun x => is_f64 x /\ finite x) half_way /\
  fmt_prec 20 tenth = "0.10000000000000000555" /\ fmt_prec 0 (scaled 10 false 25 (-1)) = "2" /\
  asks "" 3 /\ asks "%.4f" 4 /\
  fmt_prec 6 (scaled 10 true 123456789 2) = "-12345678900.000000".
Proof.
  split; [by vm_compute|]. split; [repeat (apply Forall_cons_2; [split; [by vm_compute|by apply is_f64_finite; vm_compute]|]); apply Forall_nil_2|]. split; [by vm_compute|]. split; [by vm_compute|]. split; [by left|].
  split; [|by vm_compute]. right; right. exists "4". split; [done|]. split; [by vm_compute; repeat split; lia|]. done.
Qed.
Section wit.
Local Existing Instance ex_rt.
Local Existing Instance ex_prt.
Lemma C98_head_check_main : wf ex_vh ex_v /\ @print_head (go_prt ex_prt) 2 "%.1f" ex_v ex_vh = Ok (text
  ["b: 1.0 0.5"; line_end; "a: 9 5"; line_end; "f: 1 1"; line_end; "s: 'yy' 'x'"; line_end], ex_vh).
Proof. split; [exact ex_v_wf|by vm_compute]. Qed.
End wit.
(** With the default format a small coefficient is shown as zero, with a minus
    sign if it is negative. *)
Lemma C98_zero_refuted_main : exists x, is_f64 x /\ finite x /\ real_of x <> 0%R /\ fmt_prec 3 x = "-0.000" /\ parse_f64 (fmt_prec 3 x) <> Some x.
Proof.
  exists (scaled 10 true 1 (-4)). split; [by vm_compute|]. split; [by apply is_f64_finite; vm_compute|]. split; [|split; by vm_compute].
  assert (E : exists m e, scaled 10 true 1 (-4) = S754_finite true m e) by (do 2 eexists; by vm_compute). destruct E as (m & e & ->).
  change (real_of (S754_finite true m e)) with (f64_R (S754_finite true m e)). rewrite f64_R_finite. cbn [sgn].
  pose proof (bpow_gt_0 radix2 e). pose proof (IZR_lt 0 (Zpos m) ltac:(lia)). nra.
Qed.
