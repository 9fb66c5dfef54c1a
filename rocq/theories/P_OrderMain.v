(** C118: with batches that hold all rows, training depends neither on the
    order of the rows nor on the shuffles. *)
From Coq Require Import Reals Lra.
From Verif Require Import P_PrepMain P_Check.
From Verif Require Export P_LinRegMain.
From stdpp Require Import strings list.
From Verif Require Import M_LinReg P_Auto4 P_Check.
Local Open Scope R_scope.

Fixpoint grad_sum (l : list (list R * R)) (w : list R) (j : nat) : R :=
  match l with [] => 0 | (x, t) :: l => nth j x 0 * (rdot x w - t) + grad_sum l w j end.
Lemma grad_sum_zip rows : forall y w j, sse_grad rows y w j = grad_sum (zip rows y) w j.
Proof. induction rows as [|x rows IH]; intros [|t y] w j; try done. cbn. f_equal. apply IH. Qed.
Lemma grad_sum_perm l l' w j : l ≡ₚ l' -> grad_sum l w j = grad_sum l' w j.
Proof. induction 1 as [|[x t] l l' _ IH|[x t] [x' t'] l|l1 l2 l3 _ IH1 _ IH2]; cbn; [done|by rewrite IH|lra|congruence]. Qed.
Lemma real_step_perm lr decay momentum st b b' : zip b.1 b.2 ≡ₚ zip b'.1 b'.2 -> real_step lr decay momentum st b = real_step lr decay momentum st b'.
Proof.
  intros H. unfold real_step. assert (E : real_grad momentum b.1 b.2 st.1 st.2 = real_grad momentum b'.1 b'.2 st.1 st.2); [|by rewrite E].
  unfold real_grad. apply list_fmap_ext. intros _ j _. rewrite !grad_sum_zip. by rewrite (grad_sum_perm _ _ _ _ H).
Qed.
Lemma run_perm lr decay momentum bs bs' : Forall2 (fun b b' => zip b.1 b.2 ≡ₚ zip b'.1 b'.2) bs bs' ->
  forall st, run lr decay momentum st bs = run lr decay momentum st bs'.
Proof. induction 1 as [|b b' bs bs' Hb _ IH]; intros st; [done|]. cbn [run foldl]. rewrite (real_step_perm _ _ _ _ _ _ Hb). apply IH. Qed.

Lemma C118_order_main : forall (bl : blas real_arith), exact_blas bl ->
  forall (ne size : Z) (lr decay momentum : R) (lowmem : bool) (w prev : list R) (rows rows' : list (list R)) (y y' : list R) (epochs epochs' : list (list (list nat))),
  length prev = length w -> batch_ok (length w) (rows, y) -> batch_ok (length w) (rows', y') -> zip rows y ≡ₚ zip rows' y' ->
  (0 < length rows)%nat -> (Z.of_nat (length rows) <= size)%Z -> length epochs = length epochs' ->
  Forall (batches_of (Z.to_nat size) (length rows)) epochs -> Forall (batches_of (Z.to_nat size) (length rows')) epochs' ->
  foldl (sgd_step bl (exact_params ne size lr decay momentum lowmem)) (XR <$> w, XR <$> prev) ((fun q => exact_batch (part_of rows y q)) <$> concat epochs) =
  foldl (sgd_step bl (exact_params ne size lr decay momentum lowmem)) (XR <$> w, XR <$> prev) ((fun q => exact_batch (part_of rows' y' q)) <$> concat epochs').
Proof.
  intros bl HB ne size lr decay momentum lowmem w prev rows rows' y y' epochs epochs' Hp [Hy HF] [Hy' HF'] HZ Hn Hsz Hle HE HE'. cbn [fst snd] in *.
  assert (Hlr : length rows' = length rows). { apply Permutation_length in HZ. rewrite !zip_with_length in HZ. lia. }
  assert (G : forall r u es, length u = length r -> Forall (fun x : list R => length x = length w) r -> length r = length rows -> Forall (batches_of (Z.to_nat size) (length r)) es ->
    let bs := part_of r u <$> concat es in Forall (batch_ok (length w)) bs /\ length bs = length es /\ Forall (fun b => zip b.1 b.2 ≡ₚ zip r u) bs /\
    ((fun q => exact_batch (part_of r u q)) <$> concat es) = exact_batch <$> bs).
  { intros r u es Hu Hr Hl Hes bs. destruct (full_epochs (Z.to_nat size) (length r) es ltac:(lia) ltac:(lia) Hes) as [Hq Hlen]. split; [|split; [|split]].
    - apply Forall_fmap, Forall_forall. intros q Hq'. by apply (part_ok (Z.to_nat size) (length r) (length w) r u es).
    - unfold bs. by rewrite fmap_length.
    - apply Forall_fmap, Forall_forall. intros q Hq'. cbn [part_of fst snd compose]. unfold compose, part_of. cbn [fst snd]. rewrite zip_pick by done. rewrite Forall_forall in Hq. etrans; [apply pick_perm, (Hq _ Hq')|].
      assert (EL : length (zip r u) = length r) by (rewrite zip_with_length; lia). rewrite <- EL at 1. by rewrite pick_seq0.
    - unfold bs. by rewrite <- list_fmap_compose. }
  destruct (G rows y epochs Hy HF eq_refl HE) as (H1 & L1 & P1 & E1). destruct (G rows' y' epochs' Hy' HF' Hlr HE') as (H2 & L2 & P2 & E2). rewrite E1, E2.
  etrans; [apply (exact_run bl HB ne size lr decay momentum lowmem _ (w, prev) Hp H1)|]. symmetry. etrans; [apply (exact_run bl HB ne size lr decay momentum lowmem _ (w, prev) Hp H2)|]. symmetry.
  cbv beta. change (foldl (real_step lr decay momentum)) with (run lr decay momentum).
  rewrite (run_perm lr decay momentum (part_of rows y <$> concat epochs) (part_of rows' y' <$> concat epochs')); [done|].
  apply Forall2_same_length_lookup_2; [congruence|]. intros i b b' Hb Hb'. rewrite Forall_lookup in P1, P2. rewrite (P1 _ _ Hb), (P2 _ _ Hb'). exact HZ.
Qed.

(** Smaller batches: the order matters, even without rounding. *)
Definition ow_params : lr_params f64_arith := LRParams f64_arith 1 f_half 1 f64_zero f64_zero false.
Definition ow (order : list nat) : list f64 :=
  (foldl (sgd_step fbl ow_params) ([f64_zero], [f64_zero]) ((fun i => ([[f64_one]], [f64_of_Z (Z.of_nat i)])) <$> order)).1.
Lemma C118_batches_refuted_main : exists p p' : list nat, p ≡ₚ p' /\ ow p = [f_half] /\ ow p' = [f64_mul f_half f_half] /\ ow p <> ow p'.
Proof. exists [0; 1]%nat, [1; 0]%nat. split; [apply (bool_decide_unpack _); by vm_compute|]. split; [by vm_compute|]. split; by vm_compute. Qed.
Lemma C118_check_main : exact_blas xbl /\ batch_ok 1 (xw_rows, [2; 4]) /\ batch_ok 1 (reverse xw_rows, [4; 2]) /\ zip xw_rows [2; 4] ≡ₚ zip (reverse xw_rows) [4; 2] /\
  Forall (batches_of (Z.to_nat 2) 2) [[[1%nat; 0%nat]]; [[0%nat; 1%nat]]] /\ Forall (batches_of (Z.to_nat 2) 2) [[[0%nat; 1%nat]]; [[0%nat; 1%nat]]].
Proof.
  destruct C75_check_main as (H1 & H2 & _ & _ & H3 & _). split; [done|]. split; [done|]. split; [|split; [|split; [done|]]].
  - split; [done|]. cbn [fst]. by apply Forall_reverse, H2.
  - unfold xw_rows. cbn. apply perm_swap.
  - apply Forall_cons in H3 as [_ H3]. apply Forall_cons in H3 as [H3 _]. apply Forall_cons; split; [done|]. by apply Forall_singleton.
Qed.
