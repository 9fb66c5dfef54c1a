(** Linear regression in exact arithmetic: least squares. *)
From Coq Require Import Reals Lra.
From Verif Require Import P_LinReg3 Spec_LinReg.
Local Open Scope R_scope.
Local Set Default Goal Selector "1".

(** ** Inner products *)
Lemma rdot_comm x : forall y, rdot x y = rdot y x.
Proof. induction x as [|a x IH]; intros [|b y]; cbn; try done. rewrite IH. lra. Qed.
Lemma rdot_nil_r x : rdot x [] = 0.
Proof. by destruct x. Qed.
Lemma rdot_move x : forall v a d, length v = length d -> rdot x (rmove v a d) = rdot x v + a * rdot x d.
Proof.
  induction x as [|b x IH]; intros [|v0 v] a [|d0 d] Hl; try done; cbn; try lra.
  change (zip_with _ v d) with (rmove v a d). rewrite IH by (simpl in Hl; lia). lra.
Qed.
Lemma rmove_length v a d : length v = length d -> length (rmove v a d) = length v.
Proof. intros. unfold rmove. rewrite zip_with_length. lia. Qed.
Lemma rdot_pos x : 0 <= rdot x x.
Proof. induction x as [|a x IH]; cbn; [lra|]. nra. Qed.
Lemma rdot_zero x : rdot x x = 0 -> Forall (fun a => a = 0) x.
Proof. induction x as [|a x IH]; cbn; [done|]. intros H. pose proof (rdot_pos x). constructor; [nra|]. apply IH. nra. Qed.
Lemma rdot_move2 v a d : length v = length d ->
  rdot (rmove v a d) (rmove v a d) = rdot v v + 2 * a * rdot v d + a * a * rdot d d.
Proof.
  intros Hl. rewrite rdot_move by done. rewrite (rdot_comm _ v), (rdot_comm _ d), !rdot_move by done. rewrite (rdot_comm d v). lra.
Qed.
(** Cauchy-Schwarz. *)
Lemma cauchy x g : length x = length g -> rdot x g * rdot x g <= rdot x x * rdot g g.
Proof.
  intros Hl. pose proof (rdot_pos g) as Hg. pose proof (rdot_pos x) as Hx.
  assert (H : forall a, 0 <= rdot x x + 2 * a * rdot x g + a * a * rdot g g) by (intros a; rewrite <- rdot_move2 by done; apply rdot_pos).
  destruct (Req_dec (rdot g g) 0) as [E|E].
  - rewrite E in *. destruct (Req_dec (rdot x g) 0) as [E2|E2]; [rewrite E2; lra|]. exfalso.
    specialize (H (- (rdot x x + 1) / (2 * rdot x g))).
    replace (2 * (- (rdot x x + 1) / (2 * rdot x g)) * rdot x g) with (- (rdot x x + 1)) in H by (field; lra). lra.
  - specialize (H (- rdot x g / rdot g g)).
    replace (rdot x x + 2 * (- rdot x g / rdot g g) * rdot x g + - rdot x g / rdot g g * (- rdot x g / rdot g g) * rdot g g)
      with ((rdot x x * rdot g g - rdot x g * rdot x g) / rdot g g) in H by (field; lra).
    assert (0 < rdot g g) by lra. apply (Rmult_le_compat_r (rdot g g)) in H; [|lra]. 
    replace ((rdot x x * rdot g g - rdot x g * rdot x g) / rdot g g * rdot g g) with (rdot x x * rdot g g - rdot x g * rdot x g) in H by (field; lra). lra.
Qed.

(** ** Residuals and their gradient *)
(** The products of the rows with a vector. *)
Definition images (rows : list (list R)) (d : list R) : list R := (fun x => rdot x d) <$> rows.
Definition errors (rows : list (list R)) (y : list R) (w : list R) : list R := zip_with (fun x t => rdot x w - t) rows y.
Lemma gradient_cons x rows t y w : length x = length w ->
  gradient (x :: rows) (t :: y) w = rmove (gradient rows y w) (rdot x w - t) x.
Proof.
  intros Hl. unfold gradient, rmove. apply list_eq. intros j. rewrite lookup_zip_with, !list_lookup_fmap.
  destruct (decide (j < length w)%nat) as [Hj|Hj].
  - rewrite lookup_seq_lt by done. cbn. destruct (lookup_lt_is_Some_2 x j ltac:(lia)) as [a Ha]. rewrite Ha. cbn. f_equal.
    rewrite nth_lookup, Ha. cbn. lra.
  - rewrite lookup_seq_ge by lia. done.
Qed.
Lemma gradient_length rows y w : length (gradient rows y w) = length w.
Proof. unfold gradient. by rewrite fmap_length, seq_length. Qed.
Lemma gradient_nil_l y w : gradient [] y w = replicate (length w) 0.
Proof. unfold gradient. rewrite <- (seq_length (length w) 0) at 2. generalize (seq 0 (length w)). induction l; [done|]. cbn. by f_equal. Qed.
Lemma rdot_zeros n : forall v, rdot v (replicate n 0) = 0.
Proof. induction n as [|n IH]; intros [|a v]; cbn; try done. rewrite IH. lra. Qed.
Lemma rdot_gradient rows : forall y w v, Forall (fun x : list R => length x = length w) rows -> length y = length rows ->
  rdot v (gradient rows y w) = rdot (images rows v) (errors rows y w).
Proof.
  induction rows as [|x rows IH]; intros [|t y] w v HF Hl; try done.
  - by rewrite gradient_nil_l, rdot_zeros.
  - apply Forall_cons in HF as [Hx HF]. rewrite gradient_cons by done. rewrite rdot_move by (by rewrite gradient_length). cbn.
    change (rdot ((fun x => rdot x v) <$> rows) (zip_with _ rows y)) with (rdot (images rows v) (errors rows y w)).
    rewrite <- IH by (done || (simpl in Hl; lia)). rewrite (rdot_comm v x). lra.
Qed.
Lemma images_bound rows d : Forall (fun x : list R => length x = length d) rows ->
  rdot (images rows d) (images rows d) <= sum_squares rows * rdot d d.
Proof.
  induction 1 as [|x rows Hx HF IH]; cbn; [lra|]. pose proof (cauchy x d Hx).
  change (rdot ((fun x => rdot x d) <$> rows) _) with (rdot (images rows d) (images rows d)). lra.
Qed.
Lemma sum_squares_pos rows : 0 <= sum_squares rows.
Proof. induction rows as [|x rows IH]; cbn; [lra|]. pose proof (rdot_pos x). lra. Qed.
(** The loss near [w]. *)
Lemma sse_expand rows : forall y w a d, Forall (fun x : list R => length x = length w) rows -> length y = length rows -> length d = length w ->
  half_sse rows y (rmove w a d) = half_sse rows y w + a * rdot d (gradient rows y w) + a * a / 2 * rdot (images rows d) (images rows d).
Proof.
  intros y w a d HF Hl Hd. rewrite rdot_gradient by done. revert y HF Hl. induction rows as [|x rows IH]; intros [|t y] HF Hl; try done; cbn; [lra|].
  apply Forall_cons in HF as [Hx HF]. rewrite IH by (done || (simpl in Hl; lia)). rewrite rdot_move by done.
  change (rdot ((fun x => rdot x d) <$> rows) (zip_with _ rows y)) with (rdot (images rows d) (errors rows y w)).
  change (rdot ((fun x => rdot x d) <$> rows) _) with (rdot (images rows d) (images rows d)). field.
Qed.
(** One step down the gradient. *)
Lemma descent rows y w lr : Forall (fun x : list R => length x = length w) rows -> length y = length rows -> 0 <= lr ->
  half_sse rows y (rmove w (- lr) (gradient rows y w)) + lr * (1 - lr * sum_squares rows / 2) * rdot (gradient rows y w) (gradient rows y w)
  <= half_sse rows y w.
Proof.
  intros HF Hl Hlr. rewrite sse_expand by (done || by rewrite gradient_length). set (g := gradient rows y w).
  assert (HB : rdot (images rows g) (images rows g) <= sum_squares rows * rdot g g).
  { apply images_bound. unfold g. by rewrite gradient_length. }
  assert (0 <= lr * lr / 2) by nra. pose proof (Rmult_le_compat_l (lr * lr / 2) _ _ H HB). nra.
Qed.
(** The gradient is bounded by the residuals. *)
Lemma gradient_bound rows y w : Forall (fun x : list R => length x = length w) rows -> length y = length rows ->
  rdot (gradient rows y w) (gradient rows y w) <= sum_squares rows * rdot (errors rows y w) (errors rows y w).
Proof.
  intros HF Hl. set (g := gradient rows y w). set (e := errors rows y w).
  assert (E : rdot g g = rdot (images rows g) e) by (unfold g at 2; by rewrite rdot_gradient).
  assert (HC : rdot (images rows g) e * rdot (images rows g) e <= rdot (images rows g) (images rows g) * rdot e e).
  { apply cauchy. unfold images, e, errors. rewrite fmap_length, zip_with_length. lia. }
  assert (HB : rdot (images rows g) (images rows g) <= sum_squares rows * rdot g g) by (apply images_bound; unfold g; by rewrite gradient_length).
  rewrite <- E in HC. pose proof (rdot_pos g). pose proof (rdot_pos e). pose proof (sum_squares_pos rows).
  destruct (Req_dec (rdot g g) 0) as [E0|E0]; [rewrite E0; nra|].
  apply (Rmult_le_reg_l (rdot g g)); [lra|]. pose proof (Rmult_le_compat_r (rdot e e) _ _ ltac:(lra) HB). lra.
Qed.
