(** Linear regression in exact arithmetic: the training loop. *)
From Coq Require Import Reals Lra.
From Verif Require Import P_LinReg3 Spec_LinReg.
From Verif Require Export P_LinRegR2.
Local Open Scope R_scope.
Local Set Default Goal Selector "1".
Notation RA := real_arith.

(** The matrix routines compute exactly. *)
Definition exact_blas (bl : blas RA) : Prop :=
  forall xs ys : list R, length xs = length ys ->
  dot_t bl (XR <$> xs) (XR <$> ys) = XR (rdot xs ys) /\ dot_n bl (XR <$> xs) (XR <$> ys) = XR (rdot xs ys).
Definition exact_params (e b : Z) (lr decay momentum : R) (lowmem : bool) : lr_params RA :=
  LRParams RA e (XR lr) b (XR decay) (XR momentum) lowmem.
Definition exact_row (x : list R) : list xr := XR <$> x.
Definition exact_batch (b : list (list R) * list R) : list (list xr) * list xr := (exact_row <$> b.1, XR <$> b.2).
(** One step of the training loop, in real numbers. *)
Definition real_grad (momentum : R) (rows : list (list R)) (y w prev : list R) : list R :=
  (fun j => sse_grad rows y w j + Rmax 0 momentum * nth j prev 0) <$> seq 0 (length w).
Definition real_step (lr decay momentum : R) (st : list R * list R) (b : list (list R) * list R) : list R * list R :=
  let g := real_grad momentum b.1 b.2 st.1 st.2 in
  ((fun x => (1 - Rmax 0 decay) * x) <$> rmove st.1 (- lr) g, if Rlt_dec 0 momentum then g else st.2).

Lemma nth0_XR (l : list R) j : nth0 (A:=RA) (XR <$> l) j = XR (nth j l 0).
Proof. unfold nth0. rewrite list_lookup_fmap, nth_lookup. by destruct (l !! j). Qed.
Lemma axpy_XR x a y : axpy (A:=RA) (XR x) (XR a) (XR y) = XR (x + a * y).
Proof. unfold axpy. cbn. destruct (Req_EM_T a 0) as [->|]; [|done]. f_equal. lra. Qed.
Lemma lt0_XR x : a_lt RA (a_of RA 0) (XR x) = if Rlt_dec 0 x then true else false.
Proof. done. Qed.
Lemma sse_grad_dot rows : forall y w j, length y = length rows -> rdot ((fun x => nth j x 0) <$> rows) (errors rows y w) = sse_grad rows y w j.
Proof. induction rows as [|x rows IH]; intros [|t y] w j Hl; try done. cbn. f_equal. apply IH. simpl in Hl. lia. Qed.

Section exact.
Context (bl : blas RA) (HB : exact_blas bl).
Lemma errors_XR rows y w : Forall (fun x : list R => length x = length w) rows ->
  zip_with (fun x t => a_sub RA (dot_t bl x (XR <$> w)) t) (exact_row <$> rows) (XR <$> y) = XR <$> errors rows y w.
Proof.
  intros HF. revert y. induction HF as [|x rows Hx HF IH]; intros [|t y]; try done. destruct (HB x w Hx) as [E _].
  refine (f_equal2 (@cons xr) _ (IH y)). exact (f_equal (fun z => a_sub RA z (XR t)) E).
Qed.
Lemma grad_XR momentum rows y w prev j : Forall (fun x : list R => length x = length w) rows -> length y = length rows ->
  step_grad (A:=RA) (dot_t bl) (dot_n bl) (XR momentum) (XR <$> w) (XR <$> prev) (exact_row <$> rows) (XR <$> y) j =
  XR (sse_grad rows y w j + Rmax 0 momentum * nth j prev 0).
Proof.
  intros HF Hl. unfold step_grad. rewrite errors_XR by done.
  replace ((fun x => nth0 (A:=RA) x j) <$> (exact_row <$> rows)) with (XR <$> ((fun x => nth j x 0) <$> rows)).
  2:{ rewrite <- !list_fmap_compose. apply list_fmap_ext. intros _ x _. unfold compose, exact_row. by rewrite nth0_XR. }
  destruct (HB ((fun x => nth j x 0) <$> rows) (errors rows y w)) as [_ E].
  { unfold errors. rewrite fmap_length, zip_with_length. lia. }
  etrans; [|]. 2:{ reflexivity. } rewrite lt0_XR. rewrite nth0_XR.
  assert (E' : dot_n bl (XR <$> ((fun x : list R => nth j x 0) <$> rows)) (XR <$> errors rows y w) = XR (sse_grad rows y w j)) by (etrans; [exact E|]; by rewrite sse_grad_dot).
  destruct (Rlt_dec 0 momentum) as [Hm|Hm].
  - etrans; [apply (f_equal (fun z => axpy (A:=RA) z (XR momentum) (XR (nth j prev 0))) E')|]. rewrite axpy_XR. by rewrite Rmax_right by lra.
  - etrans; [exact E'|]. rewrite Rmax_left by lra. f_equal. lra.
Qed.
Lemma real_step_lengths lr decay momentum st b : length st.2 = length st.1 ->
  length (real_step lr decay momentum st b).1 = length st.1 /\ length (real_step lr decay momentum st b).2 = length st.1.
Proof.
  intros Hl. unfold real_step. cbn [fst snd]. assert (Hg : length (real_grad momentum b.1 b.2 st.1 st.2) = length st.1) by (unfold real_grad; by rewrite fmap_length, seq_length).
  rewrite fmap_length, rmove_length by done. split; [done|]. by destruct (Rlt_dec 0 momentum).
Qed.
Lemma exact_step e bs lr decay momentum lm st b : length st.2 = length st.1 -> batch_ok (length st.1) b ->
  sgd_step bl (exact_params e bs lr decay momentum lm) (XR <$> st.1, XR <$> st.2) (exact_batch b) =
  (XR <$> (real_step lr decay momentum st b).1, XR <$> (real_step lr decay momentum st b).2).
Proof.
  destruct st as [w prev], b as [rows y]. cbn [fst snd]. intros Hp [Hl HF]. cbn [fst snd] in Hl, HF. unfold exact_batch. cbn [fst snd].
  etrans; [apply (sgd_step_spec (A:=RA) bl (exact_params e bs lr decay momentum lm) (XR <$> w) (XR <$> prev) (exact_row <$> rows) (XR <$> y)); by rewrite !fmap_length|].
  cbn [lp_lr lp_momentum lp_decay exact_params].
  unfold train_step, real_step. cbn [fst snd]. rewrite fmap_length.
  assert (Eg : step_grad (A:=RA) (dot_t bl) (dot_n bl) (XR momentum) (XR <$> w) (XR <$> prev) (exact_row <$> rows) (XR <$> y) <$> seq 0 (length w) =
      XR <$> real_grad momentum rows y w prev).
  { unfold real_grad. rewrite <- list_fmap_compose. apply list_fmap_ext. intros _ j _. by apply grad_XR. }
  f_equal.
  - rewrite <- list_fmap_compose. apply list_eq. intros j. rewrite !list_lookup_fmap. unfold rmove. rewrite lookup_zip_with.
    destruct (w !! j) as [x|] eqn:Ex.
    2:{ rewrite lookup_seq_ge; [done|]. by apply lookup_ge_None. }
    rewrite lookup_seq_lt by (by eapply lookup_lt_Some). unfold real_grad. rewrite list_lookup_fmap, lookup_seq_lt by (by eapply lookup_lt_Some). cbn [option_fmap option_map fmap mbind option_bind].
    change (Some (step_weight (A:=RA) (dot_t bl) (dot_n bl) (XR lr) (XR momentum) (XR decay) (XR <$> w) (XR <$> prev) (exact_row <$> rows) (XR <$> y) j) =
      Some (XR ((1 - Rmax 0 decay) * (x + - lr * (sse_grad rows y w j + Rmax 0 momentum * nth j prev 0))))). f_equal.
    unfold step_weight. rewrite grad_XR, nth0_XR by done. rewrite (nth_lookup w j 0), Ex. change (a_opp RA (XR lr)) with (XR (- lr)). cbn [default from_option id].
    rewrite axpy_XR, lt0_XR. destruct (Rlt_dec 0 decay) as [Hd|Hd].
    + rewrite (Rmax_right 0 decay) by lra. cbn. f_equal.
    + rewrite (Rmax_left 0 decay) by lra. f_equal. unfold Datatypes.id. lra.
  - rewrite lt0_XR. destruct (Rlt_dec 0 momentum); [exact Eg|done].
Qed.
(** The whole training loop. *)
Lemma exact_run e bs lr decay momentum lm batches : forall st, length st.2 = length st.1 -> Forall (batch_ok (length st.1)) batches ->
  foldl (sgd_step bl (exact_params e bs lr decay momentum lm)) (XR <$> st.1, XR <$> st.2) (exact_batch <$> batches) =
  (fun st => (XR <$> st.1, XR <$> st.2)) (foldl (real_step lr decay momentum) st batches).
Proof.
  induction batches as [|b batches IH]; intros st Hl HF; [done|]. apply Forall_cons in HF as [Hb HF]. cbn [fmap list_fmap foldl].
  rewrite exact_step by done. destruct (real_step_lengths lr decay momentum st b Hl) as [H1 H2].
  apply IH; [congruence|]. by rewrite H1.
Qed.
End exact.

(** ** Without momentum and decay *)
Lemma plain_step lr decay momentum st b : decay <= 0 -> momentum <= 0 -> batch_ok (length st.1) b ->
  (real_step lr decay momentum st b).1 = rmove st.1 (- lr) (gradient b.1 b.2 st.1).
Proof.
  intros Hd Hm [Hl HF]. unfold real_step. cbn [fst snd]. rewrite (Rmax_left 0 decay) by done.
  replace (real_grad momentum b.1 b.2 st.1 st.2) with (gradient b.1 b.2 st.1).
  2:{ unfold real_grad, gradient. apply list_fmap_ext. intros _ j _. rewrite Rmax_left by done. lra. }
  etrans; [|apply list_fmap_id]. apply list_fmap_ext. intros _ x _. unfold Datatypes.id. lra.
Qed.
Section plain.
Context (lr decay momentum : R) (Hd : decay <= 0) (Hm : momentum <= 0).
Definition run (st : list R * list R) (batches : list (list (list R) * list R)) : list R * list R := foldl (real_step lr decay momentum) st batches.
Lemma run_len batches : forall st, length st.2 = length st.1 -> Forall (batch_ok (length st.1)) batches ->
  length (run st batches).1 = length st.1 /\ length (run st batches).2 = length st.1.
Proof.
  induction batches as [|b batches IH]; intros st Hl HF; [done|]. apply Forall_cons in HF as [Hb HF]. cbn [run foldl].
  destruct (real_step_lengths lr decay momentum st b Hl) as [H1 H2]. rewrite <- H1. apply IH; [congruence|]. by rewrite H1.
Qed.
(** On data that a weight vector explains, no batch moves the weights away from it. *)
Lemma run_consistent v batches : 0 <= lr -> forall st, length st.2 = length st.1 -> length v = length st.1 ->
  Forall (fun b => batch_ok (length st.1) b /\ b.2 = images b.1 v /\ lr * sum_squares b.1 <= 2) batches ->
  dist2 (run st batches).1 v <= dist2 st.1 v.
Proof using Hd Hm.
  intros H0. induction batches as [|b batches IH]; intros st Hl Hv HF; [cbn; lra|]. apply Forall_cons in HF as [(Hb & Ey & HS) HF]. cbn [run foldl].
  destruct (real_step_lengths lr decay momentum st b Hl) as [H1 H2].
  eapply Rle_trans; [apply (IH (real_step lr decay momentum st b)); [congruence|congruence|by rewrite H1]|].
  rewrite plain_step by done. rewrite Ey. apply consistent_step; [apply Hb|done|done|done].
Qed.
(** Full batches: the loss approaches the smallest one. *)
Lemma run_full rows y v batches : 0 <= lr -> lr * sum_squares rows <= 1 -> length y = length rows -> 
  forall st, length st.2 = length st.1 -> length v = length st.1 -> Forall (fun x : list R => length x = length st.1) rows ->
  Forall (fun b => batch_ok (length st.1) b /\ zip b.1 b.2 ≡ₚ zip rows y) batches ->
  half_sse rows y (run st batches).1 <= half_sse rows y st.1 /\
  dist2 (run st batches).1 v + 2 * lr * INR (length batches) * (half_sse rows y (run st batches).1 - half_sse rows y v) <= dist2 st.1 v.
Proof using Hd Hm.
  intros H0 HS Hy. induction batches as [|b batches IH]; intros st Hl Hv HR HF; [cbn; lra|]. apply Forall_cons in HF as [(Hb & HP) HF]. cbn [run foldl].
  destruct (real_step_lengths lr decay momentum st b Hl) as [H1 H2]. set (st1 := real_step lr decay momentum st b) in *.
  destruct (IH st1 ltac:(congruence) ltac:(congruence) ltac:(by rewrite H1) ltac:(by rewrite H1)) as [I1 I2].
  assert (E1 : st1.1 = rmove st.1 (- lr) (gradient rows y st.1)).
  { unfold st1. rewrite plain_step by done. destruct (same_data_loss b.1 b.2 rows y HP (proj1 Hb) Hy) as (_ & -> & _). done. }
  pose proof (progress_step rows y st.1 v lr HR Hy Hv H0 HS) as HPr. rewrite <- E1 in HPr.
  pose proof (descent rows y st.1 lr HR Hy H0) as HD. rewrite <- E1 in HD.
  change (foldl (real_step lr decay momentum) st1 batches) with (run st1 batches). set (f := half_sse rows y (run st1 batches).1) in *.
  assert (Hf1 : half_sse rows y st1.1 <= half_sse rows y st.1).
  { assert (0 <= lr * (1 - lr * sum_squares rows / 2)) by nra. pose proof (rdot_pos (gradient rows y st.1)). nra. }
  split; [lra|]. change (length (b :: batches)) with (S (length batches)). rewrite S_INR.
  assert (2 * lr * (f - half_sse rows y v) <= 2 * lr * (half_sse rows y st1.1 - half_sse rows y v)) by nra. lra.
Qed.
End plain.
