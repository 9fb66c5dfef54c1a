(** Linear regression in exact arithmetic: gradient steps. *)
From Coq Require Import Reals Lra.
From Verif Require Import Spec_LinReg.
From Verif Require Export P_LinRegR.
Local Open Scope R_scope.
Local Set Default Goal Selector "1".

Definition minus (v w : list R) : list R := zip_with Rminus v w.
Lemma minus_length v w : length v = length w -> length (minus v w) = length w.
Proof. intros. unfold minus. rewrite zip_with_length. lia. Qed.
Lemma rmove_minus v : forall w, length v = length w -> rmove w 1 (minus v w) = v.
Proof. induction v as [|a v IH]; intros [|b w] Hl; try done. cbn. f_equal; [lra|]. apply IH. simpl in Hl. lia. Qed.
Lemma minus_rmove w : forall a g v, length g = length w -> length v = length w -> minus (rmove w a g) v = rmove (minus w v) a g.
Proof.
  induction w as [|b w IH]; intros a [|g0 g] [|v0 v] H1 H2; try done. cbn. f_equal; [lra|]. apply IH; simpl in *; lia.
Qed.
Lemma rdot_minus x : forall v w, length v = length w -> rdot x (minus v w) = rdot x v - rdot x w.
Proof.
  induction x as [|a x IH]; intros [|b v] [|c w] Hl; try done; cbn; try lra.
  change (zip_with Rminus v w) with (minus v w). rewrite IH by (simpl in Hl; lia). lra.
Qed.
Lemma rdot_zero_r g : Forall (fun a => a = 0) g -> forall d, rdot d g = 0.
Proof. induction 1 as [|a g -> HF IH]; intros [|d0 d]; cbn; try done. rewrite IH. lra. Qed.

(** ** Minimisers *)
Lemma minimiser rows y w : Forall (fun x : list R => length x = length w) rows -> length y = length rows ->
  Forall (fun a => a = 0) (gradient rows y w) <-> forall v, length v = length w -> half_sse rows y w <= half_sse rows y v.
Proof.
  intros HF Hl. split.
  - intros H0 v Hv. rewrite <- (rmove_minus v w Hv), sse_expand by (done || by rewrite minus_length).
    rewrite rdot_zero_r by done. pose proof (rdot_pos (images rows (minus v w))). lra.
  - intros Hm. apply rdot_zero. set (g := gradient rows y w) in *. pose proof (sum_squares_pos rows) as HS.
    set (lr := / (1 + sum_squares rows)). assert (0 < lr) by (apply Rinv_0_lt_compat; lra).
    assert (Hle : lr * sum_squares rows <= 1). { unfold lr. apply (Rmult_le_reg_l (1 + sum_squares rows)); [lra|]. rewrite <- Rmult_assoc, Rinv_r by lra. lra. }
    pose proof (descent rows y w lr HF Hl ltac:(lra)) as HD. fold g in HD.
    specialize (Hm (rmove w (- lr) g) ltac:(apply rmove_length; unfold g; by rewrite gradient_length)). pose proof (rdot_pos g) as HG.
    set (c := lr * (1 - lr * sum_squares rows / 2)) in HD. assert (lr / 2 <= c) by (unfold c; nra).
    assert (c * rdot g g <= 0) by lra. destruct (Rle_lt_or_eq_dec _ _ HG) as [Hp|He]; [|done]. exfalso. assert (0 < c * rdot g g) by (apply Rmult_lt_0_compat; lra). lra.
Qed.

(** ** Distance to another weight vector *)
Lemma dist_step w lr g v : length g = length w -> length v = length w ->
  dist2 (rmove w (- lr) g) v = dist2 w v - 2 * lr * rdot (minus w v) g + lr * lr * rdot g g.
Proof.
  intros Hg Hv. unfold dist2. change (zip_with Rminus ?a ?b) with (minus a b). rewrite minus_rmove by done.
  rewrite rdot_move2 by (rewrite minus_length by done; congruence). lra.
Qed.
Lemma errors_consistent rows w v : length v = length w -> errors rows (images rows v) w = images rows (minus w v).
Proof.
  intros Hl. unfold errors, images. induction rows as [|x rows IH]; [done|]. cbn. f_equal; [by rewrite rdot_minus|]. exact IH.
Qed.
Lemma consistent_step rows w v lr : Forall (fun x : list R => length x = length w) rows -> length v = length w ->
  0 <= lr -> lr * sum_squares rows <= 2 ->
  dist2 (rmove w (- lr) (gradient rows (images rows v) w)) v <= dist2 w v.
Proof.
  intros HF Hv H0 H2. set (y := images rows v). assert (Hy : length y = length rows) by (unfold y, images; by rewrite fmap_length).
  rewrite dist_step by (done || by rewrite gradient_length). rewrite rdot_gradient by done.
  pose proof (gradient_bound rows y w HF Hy) as HB. unfold y in *. rewrite errors_consistent in * by done.
  set (q := rdot (images rows (minus w v)) (images rows (minus w v))) in *. set (G := rdot _ _) in HB |- *.
  assert (0 <= q) by apply rdot_pos. assert (0 <= lr * lr) by nra. pose proof (Rmult_le_compat_l (lr * lr) _ _ H1 HB).
  assert (0 <= lr * q) by nra. nra.
Qed.
(** A step with lr * S <= 1 gets closer to every other vector in proportion to
    how much better that one is. *)
Lemma progress_step rows y w v lr : Forall (fun x : list R => length x = length w) rows -> length y = length rows -> length v = length w ->
  0 <= lr -> lr * sum_squares rows <= 1 ->
  dist2 (rmove w (- lr) (gradient rows y w)) v + 2 * lr * (half_sse rows y (rmove w (- lr) (gradient rows y w)) - half_sse rows y v) <= dist2 w v.
Proof.
  intros HF Hl Hv H0 H1. set (g := gradient rows y w). assert (Hg : length g = length w) by apply gradient_length.
  rewrite dist_step by done. pose proof (descent rows y w lr HF Hl H0) as HD. fold g in HD.
  assert (HC : half_sse rows y v = half_sse rows y w + rdot (minus v w) g + 1 / 2 * rdot (images rows (minus v w)) (images rows (minus v w))).
  { rewrite <- (rmove_minus v w Hv) at 1. rewrite sse_expand by (done || by rewrite minus_length). fold g. lra. }
  pose proof (rdot_pos (images rows (minus v w))). pose proof (rdot_pos g).
  assert (E : rdot (minus v w) g = - rdot (minus w v) g). { rewrite !(rdot_comm _ g), !rdot_minus by done. lra. }
  rewrite E in HC.
  set (f1 := half_sse rows y (rmove w (- lr) g)) in *. set (f0 := half_sse rows y w) in *. set (fv := half_sse rows y v) in *.
  set (G := rdot g g) in *. set (S := sum_squares rows) in *.
  assert (f1 - fv <= rdot (minus w v) g - lr / 2 * G).
  { assert (lr * (1 - lr * S / 2) * G >= lr / 2 * G).
    { assert (lr * (lr * S) <= lr) by nra. assert (lr * (1 - lr * S / 2) >= lr / 2) by nra. nra. }
    lra. }
  nra.
Qed.

(** ** The gradient is the derivative *)
Lemma rdot_unit n j : forall g, length g = n -> rdot (<[j := 1]> (replicate n 0)) g = nth j g 0.
Proof.
  intros g Hl. subst n. revert j. induction g as [|a g IH]; intros [|j]; cbn; try done.
  - rewrite rdot_comm, rdot_zeros. lra.
  - change (list_insert j 1 (replicate (length g) 0)) with (<[j := 1]> (replicate (length g) 0)). rewrite IH. lra.
Qed.
Lemma rmove_unit w a : forall j, (j < length w)%nat -> rmove w a (<[j := 1]> (replicate (length w) 0)) = <[j := nth j w 0 + a]> w.
Proof.
  induction w as [|b w IH]; intros j Hj; [simpl in Hj; lia|]. destruct j as [|j]; cbn.
  - f_equal; [lra|]. clear IH Hj. induction w as [|c w IH]; [done|]. cbn. f_equal; [lra|done].
  - f_equal; [lra|]. apply IH. simpl in Hj. lia.
Qed.
Lemma grad_deriv rows y w j : Forall (fun x : list R => length x = length w) rows -> length y = length rows -> (j < length w)%nat ->
  derivable_pt_lim (fun z => half_sse rows y (<[j := z]> w)) (nth j w 0) (sse_grad rows y w j).
Proof.
  intros HF Hl Hj. set (u := <[j := 1]> (replicate (length w) 0)).
  assert (Hu : length u = length w) by (unfold u; by rewrite insert_length, replicate_length).
  set (C := rdot (images rows u) (images rows u)). assert (HC : 0 <= C) by apply rdot_pos.
  assert (E : forall a, half_sse rows y (<[j := nth j w 0 + a]> w) = half_sse rows y w + a * sse_grad rows y w j + a * a / 2 * C).
  { intros a. rewrite <- rmove_unit by done. fold u. rewrite sse_expand by done. unfold u at 1. rewrite rdot_unit by apply gradient_length.
    unfold gradient at 1. rewrite nth_lookup, list_lookup_fmap, lookup_seq_lt by done. done. }
  assert (E0 : half_sse rows y (<[j := nth j w 0]> w) = half_sse rows y w).
  { rewrite <- (Rplus_0_r (nth j w 0)) at 1. rewrite E. lra. }
  intros eps Heps. assert (Hd : 0 < eps / (C + 1)) by (apply Rdiv_lt_0_compat; lra). exists (mkposreal _ Hd). intros a Ha Hlt. cbn in Hlt.
  rewrite E, E0. replace ((half_sse rows y w + a * sse_grad rows y w j + a * a / 2 * C - half_sse rows y w) / a - sse_grad rows y w j) with (a * (C / 2)) by (field; done).
  rewrite Rabs_mult, (Rabs_right (C / 2)) by lra. apply (Rmult_lt_compat_r (C + 1)) in Hlt; [|lra].
  replace (eps / (C + 1) * (C + 1)) with eps in Hlt by (field; lra). pose proof (Rabs_pos a). nra.
Qed.

(** ** Order of the rows *)
Lemma half_sse_zip rows : forall y w, half_sse rows y w = foldr Rplus 0 ((fun p => (rdot p.1 w - p.2) ^ 2 / 2) <$> zip rows y).
Proof. induction rows as [|x rows IH]; intros [|t y] w; cbn; try done. by rewrite IH. Qed.
Lemma sse_grad_zip rows : forall y w j, sse_grad rows y w j = foldr Rplus 0 ((fun p => nth j p.1 0 * (rdot p.1 w - p.2)) <$> zip rows y).
Proof. induction rows as [|x rows IH]; intros [|t y] w j; cbn; try done. by rewrite IH. Qed.
Lemma sum_squares_zip rows : forall y : list R, length y = length rows -> sum_squares rows = foldr Rplus 0 ((fun p => rdot p.1 p.1) <$> zip rows y).
Proof. induction rows as [|x rows IH]; intros [|t y] Hl; cbn; try done. rewrite <- IH; [done|]. simpl in Hl. lia. Qed.
Lemma rsum_perm l l' : l ≡ₚ l' -> foldr Rplus 0 l = foldr Rplus 0 l'.
Proof. induction 1; cbn; lra. Qed.
Lemma same_data_loss rows y rows' y' : zip rows y ≡ₚ zip rows' y' -> length y = length rows -> length y' = length rows' ->
  (forall w, half_sse rows y w = half_sse rows' y' w) /\ (forall w, gradient rows y w = gradient rows' y' w) /\ sum_squares rows = sum_squares rows'.
Proof.
  intros HP H1 H2. split; [|split].
  - intros w. rewrite !half_sse_zip. apply rsum_perm. by rewrite HP.
  - intros w. unfold gradient. apply list_fmap_ext. intros _ j _. rewrite !sse_grad_zip. apply rsum_perm. by rewrite HP.
  - rewrite (sum_squares_zip rows y), (sum_squares_zip rows' y') by done. apply rsum_perm. by rewrite HP.
Qed.
