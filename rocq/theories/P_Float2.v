(** Signs and NaN of float64 results. *)
From Verif Require Import P_Float.
From Verif Require Export M_Prep.

(** Not NaN, with the given sign. *)
Definition signed (s : bool) (x : f64) : Prop :=
  match x with S754_nan => False | S754_zero t => t = s | S754_infinity t => t = s | S754_finite t _ _ => t = s end.
Definition finite (x : f64) : Prop := match x with S754_zero _ => True | S754_finite _ _ _ => True | _ => False end.

Lemma shr_1_nonneg r : (0 <= shr_m r)%Z -> (0 <= shr_m (shr_1 r))%Z.
Proof. destruct r as [[|[p|p|]|p] a b]; simpl; lia. Qed.
Lemma iter_shr_nonneg p : forall r, (0 <= shr_m r)%Z -> (0 <= shr_m (iter_pos shr_1 p r))%Z.
Proof. induction p as [p IH|p IH|]; intros r H; simpl; [apply IH, IH, shr_1_nonneg, H|apply IH, IH, H|apply shr_1_nonneg, H]. Qed.
Lemma shr_nonneg r e n : (0 <= shr_m r)%Z -> (0 <= shr_m (shr r e n).1)%Z.
Proof. destruct n; simpl; [done|apply iter_shr_nonneg|done]. Qed.
Lemma rec_of_loc m l : shr_m (shr_record_of_loc m l) = m.
Proof. by destruct l as [|[]]. Qed.
Lemma rne_nonneg m l : (0 <= m)%Z -> (0 <= round_nearest_even m l)%Z.
Proof. destruct l as [|[]]; simpl; try lia. destruct (Z.even m); lia. Qed.
Lemma round_aux_sign s m e l : (0 <= m)%Z -> signed s (binary_round_aux 53 1024 s m e l).
Proof.
  intros H. unfold binary_round_aux, shr_fexp.
  pose proof (shr_nonneg (shr_record_of_loc m l) e (SpecFloat.fexp 53 1024 (Zdigits2 m + e) - e)) as H1.
  rewrite rec_of_loc in H1. specialize (H1 H). destruct (shr _ e _) as [r1 e1]. simpl in H1.
  pose proof (rne_nonneg (shr_m r1) (loc_of_shr_record r1) H1) as H2.
  set (m2 := round_nearest_even _ _) in *.
  pose proof (shr_nonneg (shr_record_of_loc m2 loc_Exact) e1 (SpecFloat.fexp 53 1024 (Zdigits2 m2 + e1) - e1)) as H3.
  rewrite rec_of_loc in H3. specialize (H3 H2). destruct (shr _ e1 _) as [r2 e2]. simpl in H3.
  destruct (shr_m r2) as [|p|p]; [done| |lia]. by destruct (Z.leb _ _).
Qed.
Lemma round_aux_opp s m e l : binary_round_aux 53 1024 (negb s) m e l = SFopp (binary_round_aux 53 1024 s m e l).
Proof.
  unfold binary_round_aux. destruct (shr_fexp _ _ m e l) as [r1 e1]. destruct (shr_fexp _ _ _ e1 _) as [r2 e2].
  destruct (shr_m r2) as [|p|p]; [done| |done]. by destruct (Z.leb _ _).
Qed.
Lemma round_sign s m e : signed s (binary_round 53 1024 s m e).
Proof. unfold binary_round. destruct (shl_align _ _ _). by apply round_aux_sign. Qed.
Lemma round_opp s m e : binary_round 53 1024 (negb s) m e = SFopp (binary_round 53 1024 s m e).
Proof. unfold binary_round. destruct (shl_align _ _ _). apply round_aux_opp. Qed.
Lemma normalize_notnan m e s : f64_isnan (binary_normalize 53 1024 m e s) = false.
Proof.
  destruct m as [|p|p]; [done|..]; simpl; [pose proof (round_sign false p e) as H|pose proof (round_sign true p e) as H];
  destruct (binary_round _ _ _ _ _); simpl in *; done.
Qed.
Lemma normalize_nonneg m e : (0 <= m)%Z -> signed false (binary_normalize 53 1024 m e false).
Proof. destruct m as [|p|p]; intros H; [done| |lia]. apply round_sign. Qed.

Lemma f64_add_notnan x y : f64_isnan x = false -> finite y -> f64_isnan (f64_add x y) = false.
Proof.
  destruct x as [s|s| |s m e], y as [t|t| |t m' e']; simpl; try done; intros _ _.
  - by destruct (Bool.eqb s t).
  - apply normalize_notnan.
Qed.
Lemma div_core_nonneg m1 e1 m2 e2 : let '(q, _, _) := SFdiv_core_binary 53 1024 (Zpos m1) e1 (Zpos m2) e2 in (0 <= q)%Z.
Proof.
  unfold SFdiv_core_binary. set (m' := match _ with Z0 => _ | _ => _ end).
  assert (H : (0 <= m')%Z) by (subst m'; destruct (_ - _ - _)%Z; [lia|rewrite Z.shiftl_nonneg; lia|lia]).
  pose proof (Z.div_pos m' (Zpos m2) H ltac:(lia)) as Hq. unfold Z.div in Hq. destruct (Z.div_eucl m' (Zpos m2)) as [q r]. done.
Qed.
Lemma f64_div_sign x y s t : signed s x -> signed t y -> finite y -> y <> S754_zero t -> signed (xorb s t) (f64_div x y).
Proof.
  destruct x as [a|a| |a m e], y as [b|b| |b m' e']; simpl; intros Hx Hy Hf Hz; try done; subst; try done.
  pose proof (div_core_nonneg m e m' e') as H. destruct (SFdiv_core_binary _ _ _ _ _ _) as [[q e2] l]. by apply round_aux_sign.
Qed.
Lemma signed_notnan s x : signed s x -> f64_isnan x = false.
Proof. by destruct x. Qed.
Lemma notnan_signed x : f64_isnan x = false -> exists s, signed s x.
Proof. destruct x; simpl; eauto; done. Qed.
Lemma f64_of_Z_sign z : (0 <= z)%Z -> signed false (f64_of_Z z).
Proof. apply normalize_nonneg. Qed.
Lemma f64_of_Z_finite z : (1 <= z <= 2 ^ 53)%Z -> finite (f64_of_Z z) /\ f64_of_Z z <> S754_zero false.
Proof.
  intros Hz. destruct (f64_of_Z_exact z) as (H1 & H2 & _); [lia|].
  destruct (f64_of_Z z) as [b|b| |b m e]; simpl in *; try done. exfalso.
  unfold f64_R in H1. simpl in H1.
  assert (z = 0%Z) by (by apply Reals.RIneq.eq_IZR). lia.
Qed.

(** The mean of finite values is not NaN. *)
Lemma f64_sum_notnan vs : forall p : f64 * Z, f64_isnan p.1 = false -> Forall (fun v => f64_isnan v = true \/ finite v) vs ->
  f64_isnan (foldl (fun p v => if f64_isnan v then p else (f64_add p.1 v, (p.2 + 1)%Z)) p vs).1 = false.
Proof.
  induction vs as [|v vs IH]; intros p Hp H; [done|]. apply Forall_cons in H as [Hv H]. simpl.
  destruct (f64_isnan v) eqn:E; [by apply IH|]. apply IH; [|done]. simpl. apply f64_add_notnan; [done|]. by destruct Hv.
Qed.
Lemma f64_count vs : forall p : f64 * Z,
  (foldl (fun p v => if f64_isnan v then p else (f64_add p.1 v, (p.2 + 1)%Z)) p vs).2
  = (p.2 + Z.of_nat (length (filter (fun v => f64_isnan v = false) vs)))%Z.
Proof.
  induction vs as [|v vs IH]; intros p; [simpl; lia|]. cbn [foldl]. rewrite filter_cons. destruct (f64_isnan v) eqn:E; rewrite IH.
  - rewrite decide_False by done. done.
  - rewrite decide_True by done. cbn [length snd]. lia.
Qed.
Lemma f64_mean_notnan vs : Forall (fun v => f64_isnan v = true \/ finite v) vs -> (exists v, v ∈ vs /\ f64_isnan v = false) ->
  (Z.of_nat (length vs) <= 2 ^ 53)%Z -> f64_isnan (mean_of f64_arith vs) = false.
Proof.
  intros H (v0 & Hin & Hv0) Hl. unfold mean_of. pose proof (f64_sum_notnan vs (f64_of_Z 0, 0%Z) eq_refl H) as H1.
  pose proof (f64_count vs (f64_of_Z 0, 0%Z)) as H2.
  change (sum_n f64_arith vs) with (foldl (fun p v => if f64_isnan v then p else (f64_add p.1 v, (p.2 + 1)%Z)) (f64_of_Z 0, 0%Z) vs).
  destruct (foldl _ _ vs) as [sum n]. simpl in H1, H2 |- *.
  assert (Hpos : 1 <= length (filter (fun v => f64_isnan v = false) vs)).
  { destruct (filter (fun v => f64_isnan v = false) vs) as [|x l] eqn:E; [|simpl; lia].
    assert (v0 ∈ filter (fun v => f64_isnan v = false) vs) as Hx by (by apply elem_of_list_filter). rewrite E in Hx. by apply elem_of_nil in Hx. }
  pose proof (filter_length (fun v => f64_isnan v = false) vs) as Hle.
  destruct (f64_of_Z_finite n) as [Hf Hz]; [lia|]. destruct (notnan_signed sum H1) as [s Hs].
  eapply signed_notnan, f64_div_sign; [exact Hs|apply f64_of_Z_sign; lia|done|done].
Qed.
(** If every value is NaN, so is the mean. *)
Lemma f64_mean_nan vs : Forall (fun v => f64_isnan v = true) vs -> f64_isnan (mean_of f64_arith vs) = true.
Proof.
  intros H. assert (E : sum_n f64_arith vs = (f64_of_Z 0, 0%Z)).
  { unfold sum_n. simpl. induction H as [|v vs Hv H IH]; [done|]. simpl. rewrite Hv. exact IH. }
  unfold mean_of. by rewrite E.
Qed.

(** Differences with exchanged operands. *)
Lemma f64_sub_opp x y : f64_sub y x = SFopp (f64_sub x y) \/ (exists s t, f64_sub y x = S754_zero s /\ f64_sub x y = S754_zero t).
Proof.
  destruct x as [s|s| |s m e], y as [t|t| |t m' e']; simpl; try (by left); try (left; by rewrite negb_involutive); try (left; by destruct s, t).
  - right. destruct s, t; simpl; eauto.
  - unfold f64_sub. simpl. rewrite (Z.min_comm e' e). set (a := cond_Zopp s _). set (b := cond_Zopp t _).
    destruct (a - b)%Z as [|p|p] eqn:E.
    + right. assert (b - a = 0)%Z as -> by lia. simpl. eauto.
    + left. assert (b - a = Zneg p)%Z as -> by lia. simpl. apply (round_opp false).
    + left. assert (b - a = Zpos p)%Z as -> by lia. simpl. apply (round_opp true).
Qed.
Lemma f64_sq_sym x y : f64_mul (f64_sub x y) (f64_sub x y) = f64_mul (f64_sub y x) (f64_sub y x).
Proof.
  destruct (f64_sub_opp x y) as [-> | (s & t & -> & ->)]; [|by destruct s, t].
  destruct (f64_sub x y) as [s|s| |s m e]; try done; unfold f64_mul; simpl; by destruct s.
Qed.
Lemma f64_abs_sym x y : SFabs (f64_sub x y) = SFabs (f64_sub y x).
Proof. destruct (f64_sub_opp x y) as [-> | (s & t & -> & ->)]; [|done]. by destruct (f64_sub x y). Qed.
(** Squares and sums of non-negative numbers. *)
Definition nonneg (x : f64) : Prop := f64_isnan x = true \/ signed false x.
Lemma f64_sq_nonneg x : nonneg (f64_mul x x).
Proof.
  destruct x as [s|s| |s m e]; unfold nonneg; simpl; try (right; by destruct s); [by left|].
  right. unfold f64_mul. simpl. replace (xorb s s) with false by (by destruct s). by apply round_aux_sign.
Qed.
Lemma f64_abs_nonneg x : nonneg (SFabs x).
Proof. destruct x; unfold nonneg; simpl; auto. Qed.
Lemma f64_add_nonneg x y : nonneg x -> nonneg y -> nonneg (f64_add x y).
Proof.
  unfold nonneg. destruct x as [s|s| |s m e], y as [t|t| |t m' e']; simpl; intros [Hx|Hx] [Hy|Hy]; try done; subst; auto; try (by right).
  right. apply normalize_nonneg. simpl. lia.
Qed.
Lemma f64_div_nonneg x n : nonneg x -> (0 <= n)%Z -> nonneg (f64_div x (f64_of_Z n)).
Proof.
  intros Hx Hn. pose proof (f64_of_Z_sign n Hn) as Hy. revert Hy. generalize (f64_of_Z n). intros y Hy. unfold nonneg in *.
  destruct x as [s|s| |s m e], y as [t|t| |t m' e']; simpl in *; destruct Hx as [Hx|Hx]; try done; subst; auto; try (by right).
  right. pose proof (div_core_nonneg m e m' e') as H. unfold f64_div. simpl.
  destruct (SFdiv_core_binary _ _ _ _ _ _) as [[q e2] l]. by apply round_aux_sign.
Qed.
