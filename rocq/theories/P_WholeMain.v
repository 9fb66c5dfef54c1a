(** C124: the float64 mean, MSE and MAE of columns of whole numbers. *)
From Coq Require Import Reals Psatz.
From Flocq Require Import Core BinarySingleNaN Relative.
From Verif Require Import P_Float P_FloatEx P_AssertsMain P_Check.
From Verif Require Export P_PrepMain.
From stdpp Require Import strings list.
From Verif Require Import M_Prep P_Auto4 P_Float P_FloatEx P_Check.
Local Open Scope R_scope.

(** [v] is the number [z]. *)
Definition whole (z : Z) (v : f64) : Prop := valid_binary 53 1024 v = true /\ is_finite_SF v = true /\ f64_R v = IZR z.
(** A column of whole numbers and missing values. *)
Definition whole_or_nan (o : option Z) (v : f64) : Prop := match o with Some z => whole z v | None => f64_isnan v = true end.
Definition known (os : list (option Z)) : list Z := omap (fun o => o) os.
Definition z_sum (zs : list Z) : Z := foldr Z.add 0%Z zs.
(** [v] is a float64 nearest to [q] (ties to even), with a relative error of at
    most 2^-53. *)
Definition nearest (q : R) (v : f64) : Prop :=
  valid_binary 53 1024 v = true /\ is_finite_SF v = true /\ f64_R v = rnd64 q /\ Rabs (f64_R v - q) <= Rabs q * bpow radix2 (-53).

Local Instance Hp53 : FLX.Prec_gt_0 53 := eq_refl.
Local Instance Hm53 : Prec_lt_emax 53 1024 := eq_refl.
Lemma fmt_Z z : (Z.abs z <= 2 ^ 53)%Z -> fmt (IZR z).
Proof. intros H. pose proof (fmt_mult z 0 H ltac:(lia)) as F. cbn in F. by rewrite Rmult_1_r in F. Qed.
Lemma mul_exact x y : fin64 x -> fin64 y -> fmt (f64_R x * f64_R y) -> fin64 (f64_mul x y) /\ f64_R (f64_mul x y) = f64_R x * f64_R y.
Proof.
  intros [Vx Fx] [Vy Fy] [Hr Ho]. rewrite (f64_mul_equiv x y Vx Vy).
  pose proof (Bmult_correct 53 1024 _ _ mode_NE (SF2B x Vx) (SF2B y Vy)) as H. rewrite !is_finite_SF2B, !B2R_SF2B in H.
  change (round radix2 fexp64 (round_mode mode_NE) (SF2R radix2 x * SF2R radix2 y)) with (rnd64 (f64_R x * f64_R y)) in H.
  rewrite Hr, Rlt_bool_true in H by done. destruct H as (H1 & H2 & _). apply fin_of; [done|]. etrans; [exact H2|]. by rewrite Fx, Fy.
Qed.
Lemma whole_add a b x y : whole a x -> whole b y -> (Z.abs (a + b) <= 2 ^ 53)%Z -> whole (a + b) (f64_add x y).
Proof.
  intros (Vx & Fx & Rx) (Vy & Fy & Ry) H. destruct (add_exact x y (conj Vx Fx) (conj Vy Fy)) as [[V F] R]; [rewrite Rx, Ry, <- plus_IZR; by apply fmt_Z|].
  split; [done|]. split; [done|]. by rewrite R, Rx, Ry, plus_IZR.
Qed.
Lemma whole_sub a b x y : whole a x -> whole b y -> (Z.abs (a - b) <= 2 ^ 53)%Z -> whole (a - b) (f64_sub x y).
Proof.
  intros (Vx & Fx & Rx) (Vy & Fy & Ry) H. destruct (sub_exact x y (conj Vx Fx) (conj Vy Fy)) as [[V F] R]; [rewrite Rx, Ry, <- minus_IZR; by apply fmt_Z|].
  split; [done|]. split; [done|]. by rewrite R, Rx, Ry, minus_IZR.
Qed.
Lemma whole_mul a b x y : whole a x -> whole b y -> (Z.abs (a * b) <= 2 ^ 53)%Z -> whole (a * b) (f64_mul x y).
Proof.
  intros (Vx & Fx & Rx) (Vy & Fy & Ry) H. destruct (mul_exact x y (conj Vx Fx) (conj Vy Fy)) as [[V F] R]; [rewrite Rx, Ry, <- mult_IZR; by apply fmt_Z|].
  split; [done|]. split; [done|]. by rewrite R, Rx, Ry, mult_IZR.
Qed.
Lemma whole_abs a x : whole a x -> whole (Z.abs a) (SFabs x).
Proof.
  intros (V & F & R). destruct x as [s|s| |s m e]; try done.
  - split; [done|]. split; [done|]. rewrite abs_IZR, <- R. unfold f64_R. cbn. by rewrite Rabs_R0.
  - split; [done|]. split; [done|]. rewrite abs_IZR, <- R. unfold f64_R. cbn [SFabs SF2R]. rewrite <- F2R_Zabs. by destruct s.
Qed.
Lemma whole_0 : whole 0 (f64_of_Z 0).
Proof. by split. Qed.
Lemma Rabs_quot x n : 0 < n -> Rabs (x / n) = Rabs x / n.
Proof. intros H. unfold Rdiv. rewrite Rabs_mult. f_equal. apply Rabs_pos_eq. left. by apply Rinv_0_lt_compat. Qed.
Lemma nearest_div s n x : whole s x -> (Z.abs s <= 2 ^ 53)%Z -> (1 <= n <= 2 ^ 53)%Z -> nearest (IZR s / IZR n) (f64_div x (f64_of_Z n)).
Proof.
  intros (V & F & R) Hs Hn. destruct (f64_of_Z_exact n ltac:(lia)) as (Rn & Fn & Vn). assert (Hn1 : 1 <= IZR n) by (apply IZR_le; lia).
  assert (Hq : Rabs (IZR s / IZR n) <= IZR (2 ^ 53)).
  { rewrite Rabs_quot, <- abs_IZR by lra. apply Rmult_le_reg_r with (IZR n); [lra|]. unfold Rdiv. rewrite Rmult_assoc, Rinv_l, Rmult_1_r by lra.
    rewrite <- mult_IZR. apply IZR_le. nia. }
  destruct (div_round x (f64_of_Z n) (conj V F) (conj Vn Fn)) as [[V' F'] R'].
  - rewrite Rn. lra.
  - rewrite R, Rn. apply Rle_lt_trans with (IZR (2 ^ 53)).
    + assert (E : rnd64 (IZR (2 ^ 53)) = IZR (2 ^ 53)) by (apply fmt_Z; lia). apply Rabs_le. apply Rabs_le_inv in Hq. split.
      * rewrite <- E, <- rnd_opp. apply rnd_le. lra.
      * rewrite <- E. apply rnd_le. lra.
    + change (IZR (2 ^ 53)) with (IZR (Zpower radix2 53)). rewrite IZR_Zpower by lia. by apply bpow_lt.
  - rewrite R, Rn in R'. split; [done|]. split; [done|]. split; [done|]. rewrite R'. destruct (Z.eq_dec s 0) as [->|Hs0].
    { unfold Rdiv. rewrite Rmult_0_l. unfold rnd64. rewrite round_0 by apply valid_rnd_N. rewrite Rminus_0_r, Rabs_R0, Rmult_0_l. lra. }
    pose proof (relative_error_N_FLT radix2 (-1074) 53 eq_refl (fun x => negb (Z.even x)) (IZR s / IZR n)) as H.
    change (round radix2 (FLT_exp (-1074) 53) (Znearest (fun x => negb (Z.even x))) (IZR s / IZR n)) with (rnd64 (IZR s / IZR n)) in H.
    eapply Rle_trans; [apply H|].
    + apply Rle_trans with (bpow radix2 (-53)); [apply bpow_le; lia|]. rewrite Rabs_quot, <- abs_IZR by lra.
      apply Rmult_le_reg_r with (IZR n); [lra|]. unfold Rdiv. rewrite Rmult_assoc, Rinv_l, Rmult_1_r by lra.
      apply Rle_trans with (bpow radix2 (-53) * IZR (2 ^ 53)); [apply Rmult_le_compat_l; [apply bpow_ge_0|apply IZR_le; lia]|].
      change (IZR (2 ^ 53)) with (IZR (Zpower radix2 53)). rewrite IZR_Zpower, <- bpow_plus by lia. cbn. apply IZR_le. lia.
    + rewrite Rmult_comm. apply Rmult_le_compat_l; [apply Rabs_pos|]. change (/ 2) with (bpow radix2 (-1)). rewrite <- bpow_plus. apply bpow_le. lia.
Qed.

Lemma sum_n_whole os vs : Forall2 whole_or_nan os vs -> forall a s k, whole a s -> (Z.abs a + z_sum (Z.abs <$> known os) <= 2 ^ 53)%Z ->
  exists s', foldl (fun (p : f64 * Z) (v : f64) => if f64_isnan v then p else (f64_add p.1 v, (p.2 + 1)%Z)) (s, k) vs = (s', (k + Z.of_nat (length (known os)))%Z) /\
    whole (a + z_sum (known os)) s'.
Proof.
  induction 1 as [|o v os vs Hv _ IH]; intros a s k Ws Hb.
  { exists s. cbn. by rewrite !Z.add_0_r. }
  destruct o as [z|].
  - change (known (Some z :: os)) with (z :: known os) in *. change (z_sum (Z.abs <$> z :: known os)) with (Z.abs z + z_sum (Z.abs <$> known os))%Z in Hb. change (z_sum (z :: known os)) with (z + z_sum (known os))%Z. cbn [length].
    assert (Nv : f64_isnan v = false) by (destruct Hv as (_ & F & _); by destruct v). cbn [foldl]. rewrite Nv. cbn [fst snd].
    assert (Hp : (0 <= z_sum (Z.abs <$> known os))%Z) by (clear; induction (known os) as [|y l IH]; cbn; [done|unfold z_sum in IH; lia]).
    destruct (IH (a + z)%Z (f64_add s v) (k + 1)%Z) as (s' & E & W); [apply whole_add; [done|done|lia]|lia|].
    exists s'. rewrite E. split; [f_equal; lia|]. by replace (a + (z + z_sum (known os)))%Z with (a + z + z_sum (known os))%Z by lia.
  - cbn in Hv. cbn [foldl]. rewrite Hv. exact (IH a s k Ws Hb).
Qed.
Lemma C124_mean_main : forall (os : list (option Z)) (vs : list f64), Forall2 whole_or_nan os vs ->
  let zs := known os in zs <> [] -> (z_sum (Z.abs <$> zs) <= 2 ^ 53)%Z -> (Z.of_nat (length zs) <= 2 ^ 53)%Z ->
  nearest (IZR (z_sum zs) / IZR (Z.of_nat (length zs))) (mean_of f64_arith vs).
Proof.
  intros os vs H zs Hn Hb Hl. destruct (sum_n_whole os vs H 0%Z (f64_of_Z 0) 0%Z whole_0 ltac:(cbn; exact Hb)) as (s & E & W).
  assert (Es : sum_n f64_arith vs = (s, Z.of_nat (length zs))) by exact E. unfold mean_of. rewrite Es. rewrite Z.add_0_l in W.
  apply nearest_div; [done| |split; [|done]].
  - eapply Z.le_trans; [|exact Hb]. fold zs. clear. induction zs as [|z zs IH]; cbn; [done|]. unfold z_sum in IH. lia.
  - fold zs in Hn. destruct zs; [done|]. cbn [length]. lia.
Qed.

Lemma acc_whole (F : f64 -> f64 -> f64) (G : Z -> Z -> Z) (l : list (Z * Z)) : (forall a b, 0 <= G a b)%Z ->
  (forall a b x y, whole a x -> whole b y -> (G a b <= 2 ^ 53)%Z -> whole (G a b) (F x y)) ->
  forall ps, Forall2 (fun p q => whole p.1 q.1 /\ whole p.2 q.2) l ps -> forall a s, whole a s -> (0 <= a)%Z -> (a + z_sum ((fun p => G p.1 p.2) <$> l) <= 2 ^ 53)%Z ->
  whole (a + z_sum ((fun p => G p.1 p.2) <$> l)) (foldl (fun r p => f64_add r (F p.1 p.2)) s ps).
Proof.
  intros HG HF. induction 1 as [|p q l ps [H1 H2] _ IH]; intros a s Ws Ha Hb; [cbn; by rewrite Z.add_0_r|].
  change (z_sum ((fun p => G p.1 p.2) <$> p :: l)) with (G p.1 p.2 + z_sum ((fun p => G p.1 p.2) <$> l))%Z in *.
  assert (Hp : (0 <= z_sum ((fun p => G p.1 p.2) <$> l))%Z) by (clear -HG; induction l as [|y l IH]; [done|]; change (0 <= G y.1 y.2 + z_sum ((fun p => G p.1 p.2) <$> l))%Z; specialize (HG y.1 y.2); lia).
  pose proof (HG p.1 p.2). cbn [foldl]. rewrite Z.add_assoc. apply IH; [|lia|lia]. apply whole_add; [done| |lia]. apply HF; [done|done|lia].
Qed.
Lemma whole_zip as_ bs xs ys : Forall2 whole as_ xs -> Forall2 whole bs ys -> Forall2 (fun p q => whole p.1 q.1 /\ whole p.2 q.2) (zip as_ bs) (zip xs ys).
Proof. intros H. revert bs ys. induction H as [|a x as_ xs Ha _ IH]; intros bs ys H2; [constructor|]. destruct H2 as [|b y bs ys Hb H2]; [constructor|]. constructor; [done|]. by apply IH. Qed.
Lemma C124_errors_main : forall (as_ bs : list Z) (xs ys : list f64), Forall2 whole as_ xs -> Forall2 whole bs ys ->
  length as_ = length bs -> as_ <> [] -> (Z.of_nat (length as_) <= 2 ^ 53)%Z ->
  (let sq := z_sum (zip_with (fun a b => (a - b) * (a - b))%Z as_ bs) in (sq <= 2 ^ 53)%Z -> nearest (IZR sq / IZR (Z.of_nat (length as_))) (mse_of f64_arith xs ys)) /\
  (let ab := z_sum (zip_with (fun a b => Z.abs (a - b)) as_ bs) in (ab <= 2 ^ 53)%Z -> nearest (IZR ab / IZR (Z.of_nat (length as_))) (mae_of f64_arith xs ys)).
Proof.
  intros as_ bs xs ys Hx Hy Hl Hn Hs. pose proof (whole_zip _ _ _ _ Hx Hy) as HZ. pose proof (Forall2_length _ _ _ Hx) as Hlx.
  assert (ZW : forall (G : Z -> Z -> Z), zip_with G as_ bs = (fun p => G p.1 p.2) <$> zip as_ bs) by (intros G; clear; revert bs; induction as_ as [|a as_ IH]; intros [|b bs]; try done; cbn; by rewrite IH).
  assert (Hlen : (1 <= Z.of_nat (length as_) <= 2 ^ 53)%Z) by (destruct as_; [done|cbn [length] in *; lia]).
  assert (POS : forall (G : Z -> Z -> Z) l, (forall a b, 0 <= G a b)%Z -> (0 <= z_sum ((fun p : Z * Z => G p.1 p.2) <$> l))%Z) by (intros G l HG; induction l as [|y l IH]; [done|]; change (0 <= G y.1 y.2 + z_sum ((fun p : Z * Z => G p.1 p.2) <$> l))%Z; specialize (HG y.1 y.2); lia).
  split.
  - intros sq Hq. unfold sq in *. rewrite (ZW (fun a b => (a - b) * (a - b))%Z) in *. change (mse_of f64_arith xs ys) with (f64_div (foldl (fun r p => f64_add r (f64_mul (f64_sub p.1 p.2) (f64_sub p.1 p.2))) (f64_of_Z 0) (zip xs ys)) (f64_of_Z (Z.of_nat (length xs)))). rewrite <- Hlx.
    pose proof (acc_whole (fun x y => f64_mul (f64_sub x y) (f64_sub x y)) (fun a b => (a - b) * (a - b))%Z _ ltac:(intros a b; exact (Z.square_nonneg (a - b)))
      ltac:(intros a b x y Wx Wy Hb; cbv beta in Hb |- *; assert (Hd : (Z.abs (a - b) <= 2 ^ 53)%Z) by nia; apply whole_mul; [by apply whole_sub|by apply whole_sub|lia]) _ HZ 0%Z (f64_of_Z 0) whole_0 ltac:(done) ltac:(rewrite Z.add_0_l; exact Hq)) as W.
    rewrite Z.add_0_l in W. apply nearest_div; [exact W| |done]. rewrite Z.abs_eq; [exact Hq|]. apply (POS (fun a b => (a - b) * (a - b))%Z). intros a b. exact (Z.square_nonneg (a - b)).
  - intros ab Hq. unfold ab in *. rewrite (ZW (fun a b => Z.abs (a - b))%Z) in *. change (mae_of f64_arith xs ys) with (f64_div (foldl (fun r p => f64_add r (SFabs (f64_sub p.1 p.2))) (f64_of_Z 0) (zip xs ys)) (f64_of_Z (Z.of_nat (length xs)))). rewrite <- Hlx.
    pose proof (acc_whole (fun x y => SFabs (f64_sub x y)) (fun a b => Z.abs (a - b))%Z _ ltac:(intros a b; exact (Z.abs_nonneg (a - b)))
      ltac:(intros a b x y Wx Wy Hb; cbv beta in Hb |- *; apply whole_abs, whole_sub; [done|done|lia]) _ HZ 0%Z (f64_of_Z 0) whole_0 ltac:(done) ltac:(rewrite Z.add_0_l; exact Hq)) as W.
    rewrite Z.add_0_l in W. apply nearest_div; [exact W| |done]. rewrite Z.abs_eq; [exact Hq|]. apply (POS (fun a b => Z.abs (a - b))%Z). intros a b. exact (Z.abs_nonneg (a - b)).
Qed.
(** What int and bool columns become when converted to floats. *)
Lemma C124_converted_main : forall z : Z, (Z.abs z <= 2 ^ 53)%Z -> whole z (f64_of_Z z).
Proof. intros z Hz. destruct (f64_of_Z_exact z Hz) as (H1 & H2 & H3). by split. Qed.
(** Two thirds and five thirds are rounded once, at the end. *)
Lemma C124_check_main : Forall2 whole_or_nan [Some 1%Z; None; Some (-3)%Z; Some 4%Z] [fz 1; S754_nan; fz (-3); fz 4] /\
  mean_of f64_arith [fz 1; S754_nan; fz (-3); fz 4] = f64_div (fz 2) (fz 3) /\ Forall2 whole [0; 1; 1]%Z [fz 0; fz 1; fz 1] /\ Forall2 whole [0; 0; 3]%Z [fz 0; fz 0; fz 3] /\
  mse_of f64_arith [fz 0; fz 1; fz 1] [fz 0; fz 0; fz 3] = f64_div (fz 5) (fz 3) /\ mae_of f64_arith [fz 0; fz 1; fz 1] [fz 0; fz 0; fz 3] = fz 1.
Proof.
  assert (W : forall z, (Z.abs z <= 2 ^ 53)%Z -> whole z (fz z)) by (intros z Hz; destruct (f64_of_Z_exact z Hz) as (H1 & H2 & H3); by split).
  split; [repeat (constructor; [first [apply W; lia|done]|]); constructor|]. split; [by vm_compute|].
  split; [repeat (constructor; [apply W; lia|]); constructor|]. split; [repeat (constructor; [apply W; lia|]); constructor|]. split; by vm_compute.
Qed.
(** Larger sums are rounded on the way, and the order of the rows matters. *)
Lemma C124_large_refuted_main : exists (zs zs' : list Z) (vs vs' : list f64), Forall2 whole zs vs /\ Forall2 whole zs' vs' /\ zs ≡ₚ zs' /\ z_sum zs = 4%Z /\ length zs = 4%nat /\
  mean_of f64_arith vs' = fz 1 /\ mean_of f64_arith vs = f64_div (fz 3) (fz 4).
Proof.
  exists [2 ^ 53; 1; 3 - 2 ^ 53; 0]%Z, [2 ^ 53; 3 - 2 ^ 53; 1; 0]%Z, (fz <$> [2 ^ 53; 1; 3 - 2 ^ 53; 0]%Z), (fz <$> [2 ^ 53; 3 - 2 ^ 53; 1; 0]%Z).
  assert (W : forall z, (Z.abs z <= 2 ^ 53)%Z -> whole z (fz z)) by (intros z Hz; destruct (f64_of_Z_exact z Hz) as (H1 & H2 & H3); by split).
  split; [repeat (constructor; [apply W; lia|]); constructor|]. split; [repeat (constructor; [apply W; lia|]); constructor|].
  split; [apply perm_skip, perm_swap|]. split; [done|]. split; [done|]. split; by vm_compute.
Qed.
