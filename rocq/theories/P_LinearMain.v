(** C123: the trained weights are a linear function of the initial weights and
    the targets, in exact arithmetic. *)
From Coq Require Import Reals Lra.
From Verif Require Import P_PrepMain P_Check.
From Verif Require Export P_LinRegMain.
From stdpp Require Import strings list.
From Verif Require Import M_LinReg P_Auto4 P_Check.
Local Open Scope R_scope.

(** a * u + b * v *)
Definition mix (a b : R) (u v : list R) : list R := zip_with (fun x y => a * x + b * y) u v.
(** Batches with two lists of targets. *)
Definition batch2 : Type := list (list R) * (list R * list R).
Definition batch2_ok (n : nat) (b : batch2) : Prop := batch_ok n (b.1, b.2.1) /\ batch_ok n (b.1, b.2.2).

Lemma mix_len a b u v : length u = length v -> length (mix a b u v) = length u.
Proof. intros H. unfold mix. rewrite zip_with_length. lia. Qed.
Lemma rdot_mix a b x : forall u v, length u = length v -> rdot x (mix a b u v) = a * rdot x u + b * rdot x v.
Proof.
  induction x as [|c x IH]; intros [|u0 u] [|v0 v] Hl; try done; cbn; try lra.
  change (zip_with _ u v) with (mix a b u v). rewrite IH by (simpl in Hl; lia). lra.
Qed.
Lemma grad_mix a b rows : forall y1 y2 u v j, length u = length v -> length y1 = length rows -> length y2 = length rows ->
  sse_grad rows (mix a b y1 y2) (mix a b u v) j = a * sse_grad rows y1 u j + b * sse_grad rows y2 v j.
Proof.
  induction rows as [|x rows IH]; intros [|t1 y1] [|t2 y2] u v j Hl H1 H2; try done; [cbn; lra|].
  change (nth j x 0 * (rdot x (mix a b u v) - (a * t1 + b * t2)) + sse_grad rows (mix a b y1 y2) (mix a b u v) j = a * (nth j x 0 * (rdot x u - t1) + sse_grad rows y1 u j) + b * (nth j x 0 * (rdot x v - t2) + sse_grad rows y2 v j)).
  simpl in H1, H2. rewrite rdot_mix, IH by (done || lia). lra.
Qed.
Lemma nth_mix a b u : forall v j, length u = length v -> nth j (mix a b u v) 0 = a * nth j u 0 + b * nth j v 0.
Proof. induction u as [|u0 u IH]; intros [|v0 v] [|j] Hl; try done; cbn; try lra. change (zip_with _ u v) with (mix a b u v). apply IH. simpl in Hl. lia. Qed.
Lemma mix_fmap {A} (f g : A -> R) a b l : mix a b (f <$> l) (g <$> l) = (fun x => a * f x + b * g x) <$> l.
Proof. induction l as [|x l IH]; [done|]. cbn. f_equal. exact IH. Qed.
Lemma move_mix a b k u1 : forall u2 d1 d2, length u2 = length u1 -> length d1 = length u1 -> length d2 = length u1 ->
  rmove (mix a b u1 u2) k (mix a b d1 d2) = mix a b (rmove u1 k d1) (rmove u2 k d2).
Proof.
  induction u1 as [|x u1 IH]; intros [|y u2] [|d d1] [|e d2] H1 H2 H3; try done. simpl in *. unfold rmove, mix in *. cbn. f_equal; [lra|]. apply IH; lia.
Qed.
Lemma scale_mix a b k u1 : forall u2, length u2 = length u1 -> ((fun x => k * x) <$> mix a b u1 u2) = mix a b ((fun x => k * x) <$> u1) ((fun x => k * x) <$> u2).
Proof. induction u1 as [|x u1 IH]; intros [|y u2] H; try done. unfold mix in *. cbn. f_equal; [lra|]. apply IH. simpl in H. lia. Qed.

Definition mix2 (a b : R) (s t : list R * list R) : list R * list R := (mix a b s.1 t.1, mix a b s.2 t.2).
Lemma step_mix lr decay momentum a b s t (q : batch2) : length s.2 = length s.1 -> length t.1 = length s.1 -> length t.2 = length s.1 -> batch2_ok (length s.1) q ->
  real_step lr decay momentum (mix2 a b s t) (q.1, mix a b q.2.1 q.2.2) =
  mix2 a b (real_step lr decay momentum s (q.1, q.2.1)) (real_step lr decay momentum t (q.1, q.2.2)).
Proof.
  destruct s as [s1 s2], t as [t1 t2], q as (rows & y1 & y2). cbn [fst snd]. intros Hs Ht1 Ht2 [[H1 HF] [H2 _]]. cbn [fst snd] in *.
  assert (G : real_grad momentum rows (mix a b y1 y2) (mix a b s1 t1) (mix a b s2 t2) = mix a b (real_grad momentum rows y1 s1 s2) (real_grad momentum rows y2 t1 t2)).
  { unfold real_grad. rewrite mix_len, Ht1 by done. rewrite mix_fmap. apply list_fmap_ext. intros _ j _. rewrite grad_mix, nth_mix by (done || congruence). lra. }
  assert (L1 : length (real_grad momentum rows y1 s1 s2) = length s1) by (unfold real_grad; by rewrite fmap_length, seq_length).
  assert (L2 : length (real_grad momentum rows y2 t1 t2) = length s1) by (unfold real_grad; by rewrite fmap_length, seq_length).
  unfold real_step, mix2. cbn [fst snd]. rewrite G. f_equal.
  - rewrite move_mix by done. apply scale_mix. rewrite !rmove_length by congruence. done.
  - by destruct (Rlt_dec 0 momentum).
Qed.
Lemma run_mix lr decay momentum a b qs : forall s t, length s.2 = length s.1 -> length t.1 = length s.1 -> length t.2 = length s.1 -> Forall (batch2_ok (length s.1)) qs ->
  foldl (real_step lr decay momentum) (mix2 a b s t) ((fun q : batch2 => (q.1, mix a b q.2.1 q.2.2)) <$> qs) =
  mix2 a b (foldl (real_step lr decay momentum) s ((fun q : batch2 => (q.1, q.2.1)) <$> qs)) (foldl (real_step lr decay momentum) t ((fun q : batch2 => (q.1, q.2.2)) <$> qs)).
Proof.
  induction qs as [|q qs IH]; intros s t Hs Ht1 Ht2 HF; [done|]. apply Forall_cons in HF as [Hq HF]. cbn [fmap list_fmap foldl].
  rewrite step_mix by done. destruct (real_step_lengths lr decay momentum s (q.1, q.2.1) Hs) as [A1 A2].
  assert (Ht : length t.2 = length t.1) by congruence. destruct (real_step_lengths lr decay momentum t (q.1, q.2.2) Ht) as [B1 B2].
  apply IH; congruence.
Qed.

Lemma C123_linear_main : forall (bl : blas real_arith), exact_blas bl ->
  forall (ne size : Z) (lr decay momentum : R) (lowmem : bool) (a b : R) (w1 w2 p1 p2 : list R) (qs : list batch2),
  length p1 = length w1 -> length w2 = length w1 -> length p2 = length w1 -> Forall (batch2_ok (length w1)) qs ->
  let train w p (y : batch2 -> list R) := foldl (sgd_step bl (exact_params ne size lr decay momentum lowmem)) (XR <$> w, XR <$> p) ((fun q => exact_batch (q.1, y q)) <$> qs) in
  exists u1 u2 v1 v2, train w1 p1 (fun q => q.2.1) = (XR <$> u1, XR <$> v1) /\ train w2 p2 (fun q => q.2.2) = (XR <$> u2, XR <$> v2) /\
    length u1 = length w1 /\ length u2 = length w1 /\
    train (mix a b w1 w2) (mix a b p1 p2) (fun q => mix a b q.2.1 q.2.2) = (XR <$> mix a b u1 u2, XR <$> mix a b v1 v2).
Proof.
  intros bl HB ne size lr decay momentum lowmem a b w1 w2 p1 p2 qs H1 H2 H3 HF train.
  assert (T : forall w p (y : batch2 -> list R), length p = length w -> length w = length w1 -> (forall q, batch2_ok (length w1) q -> length (y q) = length q.1) ->
    train w p y = (fun st => (XR <$> st.1, XR <$> st.2)) (foldl (real_step lr decay momentum) (w, p) ((fun q => (q.1, y q)) <$> qs)) /\
    length (foldl (real_step lr decay momentum) (w, p) ((fun q => (q.1, y q)) <$> qs)).1 = length w).
  { intros w p y Hp Hw Hy. assert (HO : Forall (batch_ok (length w)) ((fun q => (q.1, y q)) <$> qs)).
    { apply Forall_fmap. eapply Forall_impl; [exact HF|]. intros q Hq. split; [by apply Hy|]. cbn. rewrite Hw. apply Hq. }
    split.
    - unfold train. rewrite (list_fmap_compose (fun q => (q.1, y q)) exact_batch). apply (exact_run bl HB ne size lr decay momentum lowmem _ (w, p) Hp HO).
    - apply (run_len lr decay momentum _ (w, p) Hp HO). }
  destruct (T w1 p1 (fun q => q.2.1)) as [E1 L1]; [done|done|by intros q [[Hq _] _]|].
  destruct (T w2 p2 (fun q => q.2.2)) as [E2 L2]; [congruence|done|by intros q [_ [Hq _]]|].
  destruct (T (mix a b w1 w2) (mix a b p1 p2) (fun q => mix a b q.2.1 q.2.2)) as [E3 _].
  { rewrite !mix_len; congruence. } { by rewrite mix_len. }
  { intros q [[Hq _] [Hq' _]]. cbn in *. rewrite mix_len; congruence. }
  pose proof (run_mix lr decay momentum a b qs (w1, p1) (w2, p2) H1 H2 H3 HF) as RM. unfold mix2 in RM. cbn [fst snd] in RM. cbv beta in E1, E2, E3, L1, L2. apply (f_equal (fun st : list R * list R => (XR <$> st.1, XR <$> st.2))) in RM. pose proof (eq_trans E3 RM) as E4. cbn [fst snd] in E4.
  eexists _, _, _, _. split; [exact E1|]. split; [exact E2|]. split; [done|]. split; [congruence|]. exact E4.
Qed.
(** From zero weights, targets [k] times as large give weights [k] times as large. *)
Lemma C123_scaled_main : forall (bl : blas real_arith), exact_blas bl ->
  forall (ne size : Z) (lr decay momentum : R) (lowmem : bool) (k : R) (n : nat) (bs : list (list (list R) * list R)), Forall (batch_ok n) bs ->
  let train bs := foldl (sgd_step bl (exact_params ne size lr decay momentum lowmem)) (XR <$> replicate n 0, XR <$> replicate n 0) (exact_batch <$> bs) in
  exists u v, length u = n /\ train bs = (XR <$> u, XR <$> v) /\
    train ((fun b => (b.1, (fun t => k * t) <$> b.2)) <$> bs) = (XR <$> ((fun x => k * x) <$> u), XR <$> ((fun x => k * x) <$> v)).
Proof.
  intros bl HB ne size lr decay momentum lowmem k n bs HF train.
  assert (S : forall u, mix k 0 u u = (fun x => k * x) <$> u) by (intros u; unfold mix; induction u as [|x u IH]; [done|]; cbn; f_equal; [lra|exact IH]).
  assert (Z : (fun x => k * x) <$> replicate n 0 = replicate n 0) by (clear; induction n as [|n IH]; [done|]; cbn; f_equal; [lra|exact IH]).
  destruct (C123_linear_main bl HB ne size lr decay momentum lowmem k 0 (replicate n 0) (replicate n 0) (replicate n 0) (replicate n 0) ((fun b => (b.1, (b.2, b.2))) <$> bs)) as (u1 & u2 & v1 & v2 & E1 & E2 & L1 & _ & E3); try done.
  { apply Forall_fmap. rewrite replicate_length. eapply Forall_impl; [exact HF|]. intros [rows y] H. by split. }
  rewrite <- !list_fmap_compose in E1, E2, E3. unfold compose in E1, E2, E3. cbn [fst snd] in E1, E2, E3.
  assert (EB : forall g : list R -> list R, (fun x : list (list R) * list R => exact_batch (x.1, g x.2)) <$> bs = exact_batch <$> ((fun b => (b.1, g b.2)) <$> bs)) by (intros g; by rewrite <- list_fmap_compose).
  assert (EI : (fun x : list (list R) * list R => exact_batch (x.1, x.2)) <$> bs = exact_batch <$> bs) by (apply list_fmap_ext; by intros i [x y] _).
  rewrite EI in E1, E2. rewrite E1 in E2. injection E2 as Eu Ev. assert (INJ : Inj (=) (=) XR) by (by intros x y [=]).
  apply (inj (fmap XR)) in Eu. apply (inj (fmap XR)) in Ev. subst u2 v2. rewrite !S, Z in E3.
  exists u1, v1. split; [by rewrite L1, replicate_length|]. split; [exact E1|]. unfold train. rewrite <- E3. f_equal. rewrite <- list_fmap_compose. apply list_fmap_ext. intros i [x y] _. unfold compose. cbn [fst snd]. by rewrite S.
Qed.
Lemma C123_check_main : exact_blas xbl /\ batch2_ok 1 (xw_rows, ([2; 4], [1; 0])) /\ mix 2 1 [2; 4] [1; 0] = [2 * 2 + 1 * 1; 2 * 4 + 1 * 0].
Proof. destruct C75_check_main as (H1 & H2 & _). split; [done|]. split; [|done]. split; [done|]. split; [done|]. apply H2. Qed.
