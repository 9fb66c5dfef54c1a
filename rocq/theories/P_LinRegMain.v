(** LinearRegressor: C59, C60, C75 to C78. *)
From Coq Require Import Reals Lra.
From Verif Require Import P_PrepMain P_Check.
From Verif Require Export P_LinReg2 P_LinReg6 P_LinRegR4.
From Verif Require Import M_LinReg P_Auto4 P_Check.
Local Open Scope nat_scope.

Lemma reps_one d j i : NoDup (inds d) -> inds d !! j = Some i -> reps d j = 1.
Proof.
  intros Hnd Hi. unfold reps. rewrite Hi. apply elem_of_list_lookup_2 in Hi. revert Hnd Hi. generalize (inds d). intros l Hnd Hi. 
  induction Hnd as [|x l Hx Hnd IH]; [by apply elem_of_nil in Hi|]. rewrite filter_cons. apply elem_of_cons in Hi as [->|Hi].
  - rewrite decide_True by done. cbn. f_equal. destruct (filter _ l) as [|z k] eqn:E; [done|]. exfalso.
    assert (Hz : z ∈ filter (fun i => Some x = Some i) l) by (rewrite E; left). apply elem_of_list_filter in Hz as [[= <-] Hz]. done.
  - rewrite decide_False by (intros [= ->]; done). by apply IH.
Qed.

Section main.
Context {rt : GoRT} (bl : blas f64_arith) (order : gset string -> list string) (Ho : forall X, order X ≡ₚ elements X).
(** ** Predict *)
Lemma C59_predict_partial_main h d reg a b result : wf h d ->
  lr_scaler reg = Some (Scaler (A:=f64_arith) {["_target" := a]} {["_target" := b]}) ->
  result <> "_target" -> t_cols (abs h d) !! (KFloat, "_target") = None ->
  let panics := num_keys (abs h d) (lr_features reg) = None \/ num_rows d = 0 \/
                lr_features reg = [] \/ length (lr_weights reg) <> length (lr_features reg) in
  match lr_predict bl order reg d result h with
  | Ok (v, h') => ~ panics /\ wf h' v /\ preserved h h' /\ exists ks p,
      num_keys (abs h d) (lr_features reg) = Some ks /\ p ≡ₚ seq 0 (num_rows d) /\
      inds v = pick p (inds d) /\ Sorted le (inds v) /\
      abs h' v = t_insert (KFloat, result)
        (imap (fun j row => VFloat (Nat.iter (reps v j) (unscaled a b) (dot_t bl row (lr_weights reg))))
              (t_num_rows f64_of_val (t_select p (abs h d)) ks)) (t_select p (abs h d))
  | Panic => panics
  end.
Proof.
  intros W H1 H2 H3 panics. pose proof (predict_spec bl order Ho h d reg a b result W H1 H2 H3) as H.
  destruct (lr_predict bl order reg d result h) as [[v h']|]; [|done]. destruct H as (A & B & C & D). split; [done|]. split; [done|].
  split; [by apply ext_preserved|done].
Qed.
(** Without repeated rows: one prediction per row. *)
Lemma C59_distinct_rows_partial_main h d reg a b result ks : wf h d -> NoDup (inds d) ->
  lr_scaler reg = Some (Scaler (A:=f64_arith) {["_target" := a]} {["_target" := b]}) ->
  result <> "_target" -> t_cols (abs h d) !! (KFloat, "_target") = None ->
  num_keys (abs h d) (lr_features reg) = Some ks -> 0 < num_rows d -> lr_features reg <> [] ->
  length (lr_weights reg) = length (lr_features reg) ->
  exists v h' p, lr_predict bl order reg d result h = Ok (v, h') /\ wf h' v /\ preserved h h' /\
    p ≡ₚ seq 0 (num_rows d) /\ inds v = pick p (inds d) /\ Sorted lt (inds v) /\
    abs h' v = t_insert (KFloat, result)
      ((fun row => VFloat (unscaled a b (dot_t bl row (lr_weights reg)))) <$> t_num_rows f64_of_val (t_select p (abs h d)) ks) (t_select p (abs h d)).
Proof.
  intros W Hnd H1 H2 H3 Hk Hr Hf Hw. pose proof (predict_spec bl order Ho h d reg a b result W H1 H2 H3) as H.
  destruct (lr_predict bl order reg d result h) as [[v h']|]; [|rewrite Hk in H; destruct H as [?|[?|[?|?]]]; done || lia].
  destruct H as (_ & Wv & X & ks' & p & Hk' & Hp & Ip & Sp & Av). rewrite Hk in Hk'. injection Hk' as <-.
  pose proof W as [n Wn]. pose proof (wfn_inds_length _ _ _ Wn) as HL.
  assert (Hpl : Forall (fun i => i < length (inds d)) p).
  { apply Forall_forall. intros i Hi. rewrite Hp in Hi. apply elem_of_seq in Hi. lia. }
  assert (HP : inds v ≡ₚ inds d). { rewrite Ip. etrans; [apply pick_perm, Hp|]. rewrite <- HL. by rewrite pick_seq0. }
  assert (Hndv : NoDup (inds v)) by (by rewrite HP).
  exists v, h', p. split; [done|]. split; [done|]. split; [by apply ext_preserved|]. do 2 (split; [done|]). split.
  { clear - Sp Hndv. revert Hndv Sp. generalize (inds v). induction l as [|x l IH]; intros Hnd HS; [constructor|].
    apply NoDup_cons in Hnd as [Hx Hnd]. apply Sorted_inv in HS as [HS HH]. constructor; [by apply IH|]. destruct HH as [|z l Hz]; constructor.
    assert (x <> z) by (intros ->; apply Hx; left). lia. }
  rewrite Av. f_equal. set (rows := t_num_rows _ _ _).
  assert (Hlr : length rows = length (inds v)).
  { unfold rows, t_num_rows. rewrite fmap_length, seq_length. cbn. apply Permutation_length in Hp, HP. rewrite seq_length in Hp. congruence. }
  rewrite <- imap_const. apply imap_ext. intros j row E. unfold const. do 2 f_equal.
  destruct (lookup_lt_is_Some_2 (inds v) j) as [i Hi]; [apply lookup_lt_Some in E; rewrite <- Hlr; exact E|]. by rewrite (reps_one v j i Hndv Hi).
Qed.

(** ** Fit *)
Lemma C60_fit_partial_main norm rnd h d target (p : lr_params f64_arith) : wf h d -> is_Some (t_cols (abs h d) !! (KFloat, target)) ->
  target <> "_target" -> t_cols (abs h d) !! (KFloat, "_target") = None -> t_cols (abs h d) !! (KBool, "_target") = None ->
  let t := abs h d in
  let panics := (forall c, ~ feature t target c) \/ (lp_batch p < 0)%Z \/ (lp_epochs p < 0)%Z \/
                (0 < lp_epochs p)%Z /\ (lp_batch p = 0%Z \/ num_rows d = 0) in
  match lr_fit bl order norm rnd d target p h with
  | Ok (reg, h') => ~ panics /\ preserved h h' /\ exists a b ks epochs,
      fit_col f64_arith (ScalerOpt false true true) (t_floats t target) = (Some a, Some b) /\
      lr_scaler reg = Some (Scaler (A:=f64_arith) {["_target" := a]} {["_target" := b]}) /\
      NoDup (lr_features reg) /\ (forall c, c ∈ lr_features reg <-> feature t target c) /\
      num_keys t (lr_features reg) = Some ks /\ length (lr_weights reg) = length (lr_features reg) /\
      length epochs = Z.to_nat (lp_epochs p) /\ Forall (batches_of (Z.to_nat (lp_batch p)) (num_rows d)) epochs /\
      let n := length (lr_features reg) in
      let w0 := (fun i => f64_mul (norm i) (SFsqrt 53 1024 (f64_div (f64_of_Z 2) (f64_of_Z (Z.of_nat n))))) <$> seq 0 n in
      lr_weights reg =
        (foldl (train_step (A:=f64_arith) (dot_t bl) (dot_n bl) (lp_lr p) (lp_momentum p) (lp_decay p)) (w0, replicate n f64_zero)
               (part_data t ks (fun j => Nat.iter (reps d j) (scaled a b) (default f64_zero (t_floats t target !! j))) <$> concat epochs)).1
  | Panic => panics
  end.
Proof.
  intros W H1 H2 H3 H4 t panics. pose proof (fit_spec bl order Ho norm rnd h d target p W H1 H2 H3 H4) as H.
  destruct (lr_fit bl order norm rnd d target p h) as [[reg h']|]; [|done]. destruct H as (A & X & a & b & ks & epochs & B1 & B2 & B3 & B4 & B5 & B6 & B7 & B8).
  split; [done|]. split; [by apply ext_preserved|]. exists a, b, ks, epochs. do 5 (split; [done|]). split; [|split; [done|]; split; [done|]; exact B8].
  rewrite B8. set (n := length (lr_features reg)).
  destruct (run_lengths bl (lp_lr p) (lp_momentum p) (lp_decay p)
    (part_data t ks (fun j => Nat.iter (reps d j) (scaled a b) (default f64_zero (t_floats t target !! j))) <$> concat epochs)
    (init_weights (A:=f64_arith) norm n, replicate n f64_zero)) as [E _].
  { cbn [fst snd]. unfold init_weights. by rewrite replicate_length, fmap_length, seq_length. }
  etrans; [exact E|]. cbn [fst]. unfold init_weights. by rewrite fmap_length, seq_length.
Qed.
Lemma C60_missing_target_main norm rnd h d target (p : lr_params f64_arith) : wf h d ->
  t_cols (abs h d) !! (KFloat, target) = None -> t_cols (abs h d) !! (KBool, target) = None ->
  (exists c, is_Some (t_cols (abs h d) !! (KFloat, c)) \/ is_Some (t_cols (abs h d) !! (KBool, c))) ->
  target <> "_target" ->
  lr_fit bl order norm rnd d target p h = Panic.
Proof. exact (fit_no_target bl order Ho norm rnd h d target p). Qed.
End main.

(** The loop body is one training step, in any arithmetic. *)
Lemma C60_step_main : forall (A : arith) (bl : blas A) (p : lr_params A) (w prev : list (num A)) (rows : list (list (num A))) (y : list (num A)),
  length prev = length w ->
  sgd_step bl p (w, prev) (rows, y) = train_step (dot_t bl) (dot_n bl) (lp_lr p) (lp_momentum p) (lp_decay p) (w, prev) (rows, y).
Proof. intros A bl p w prev rows y H. by apply sgd_step_spec. Qed.

Local Open Scope R_scope.
(** ** Exact arithmetic *)
Lemma C60_exact_step_main : forall (bl : blas real_arith), exact_blas bl ->
  forall (epochs size : Z) (lr decay momentum : R) (lowmem : bool) (w prev : list R) (b : list (list R) * list R),
  length prev = length w -> batch_ok (length w) b ->
  exists w' prev', sgd_step bl (exact_params epochs size lr decay momentum lowmem) (XR <$> w, XR <$> prev) (exact_batch b) = (XR <$> w', XR <$> prev') /\
    let g j := sse_grad b.1 b.2 w j + Rmax 0 momentum * nth j prev 0 in
    length w' = length w /\ length prev' = length w /\
    (forall j, (j < length w)%nat -> nth j w' 0 = (1 - Rmax 0 decay) * (nth j w 0 - lr * g j)) /\
    (0 < momentum -> forall j, (j < length w)%nat -> nth j prev' 0 = g j).
Proof.
  intros bl HB epochs size lr decay momentum lowmem w prev b Hp Hb.
  pose proof (exact_step bl HB epochs size lr decay momentum lowmem (w, prev) b Hp Hb) as E. cbn [fst snd] in E.
  destruct (real_step_lengths lr decay momentum (w, prev) b Hp) as [L1 L2]. cbn [fst snd] in L1, L2.
  exists (real_step lr decay momentum (w, prev) b).1, (real_step lr decay momentum (w, prev) b).2. split; [exact E|].
  intros g. split; [done|]. split; [done|].
  assert (Hg : forall j, (j < length w)%nat -> real_grad momentum b.1 b.2 w prev !! j = Some (g j)).
  { intros j Hj. unfold real_grad. rewrite list_lookup_fmap, lookup_seq_lt by done. done. }
  split.
  - intros j Hj. unfold real_step. cbn [fst snd]. rewrite !nth_lookup, list_lookup_fmap. unfold rmove. rewrite lookup_zip_with, Hg by done.
    destruct (lookup_lt_is_Some_2 w j Hj) as [x Hx]. rewrite Hx. cbn. unfold Datatypes.id. lra.
  - intros Hm j Hj. unfold real_step. cbn [fst snd]. destruct (Rlt_dec 0 momentum); [|lra]. by rewrite nth_lookup, Hg.
Qed.
Lemma C60_gradient_main : forall (rows : list (list R)) (y w : list R) (j : nat), batch_ok (length w) (rows, y) -> (j < length w)%nat ->
  derivable_pt_lim (fun z => half_sse rows y (<[j := z]> w)) (nth j w 0) (sse_grad rows y w j).
Proof. intros rows y w j [Hl HF] Hj. by apply grad_deriv. Qed.

Lemma rmove_zero a g : Forall (fun z => z = 0) g -> forall w, length g = length w -> rmove w a g = w.
Proof.
  induction 1 as [|z g -> HF IH]; intros [|x w] Hg; try done. cbn. f_equal; [lra|]. apply IH. by injection Hg.
Qed.
(** C75: one step does not increase the loss. *)
Lemma C75_descent_main : forall (bl : blas real_arith), exact_blas bl ->
  forall (epochs size : Z) (lr decay momentum : R) (lowmem : bool) (w prev : list R) (b : list (list R) * list R),
  length prev = length w -> batch_ok (length w) b -> decay <= 0 -> momentum <= 0 -> 0 <= lr -> lr * sum_squares b.1 <= 2 ->
  exists w', (sgd_step bl (exact_params epochs size lr decay momentum lowmem) (XR <$> w, XR <$> prev) (exact_batch b)).1 = XR <$> w' /\
    half_sse b.1 b.2 w' + lr * (1 - lr * sum_squares b.1 / 2) * rdot (gradient b.1 b.2 w) (gradient b.1 b.2 w) <= half_sse b.1 b.2 w.
Proof.
  intros bl HB epochs size lr decay momentum lowmem w prev b Hp Hb Hd Hm H0 HS.
  exists (rmove w (- lr) (gradient b.1 b.2 w)).
  split; [|by apply descent; [apply Hb|apply Hb|]].
  etrans; [apply (f_equal fst (exact_step bl HB epochs size lr decay momentum lowmem (w, prev) b Hp Hb))|]. cbn [fst]. f_equal. by apply plain_step.
Qed.
(** The step stands still exactly at the least-squares solutions. *)
Lemma C75_minimiser_main : forall (bl : blas real_arith), exact_blas bl ->
  forall (epochs size : Z) (lr decay momentum : R) (lowmem : bool) (w prev : list R) (b : list (list R) * list R),
  length prev = length w -> batch_ok (length w) b -> decay <= 0 -> momentum <= 0 -> 0 < lr ->
  (sgd_step bl (exact_params epochs size lr decay momentum lowmem) (XR <$> w, XR <$> prev) (exact_batch b)).1 = XR <$> w <->
  forall v, length v = length w -> half_sse b.1 b.2 w <= half_sse b.1 b.2 v.
Proof.
  intros bl HB epochs size lr decay momentum lowmem w prev b Hp Hb Hd Hm H0.
  pose proof (f_equal fst (exact_step bl HB epochs size lr decay momentum lowmem (w, prev) b Hp Hb)) as E. cbn [fst snd] in E.
  rewrite plain_step in E by done. cbn [fst] in E. rewrite <- minimiser by apply Hb. set (g := gradient b.1 b.2 w) in *.
  assert (Hg : length g = length w) by apply gradient_length.
  split.
  - intros H. assert (H2 : XR <$> rmove w (- lr) g = XR <$> w) by (etrans; [symmetry; exact E|exact H]).
    assert (Hinj : rmove w (- lr) g = w). { revert H2. generalize (rmove w (- lr) g) as l. clear. revert w. induction w as [|x w IH]; intros [|z l] H; try done. cbn in H. injection H as -> H. f_equal. by apply IH. }
    apply rdot_zero. pose proof (rdot_move2 w (- lr) g ltac:(done)) as H3. pose proof (rdot_move w w (- lr) g ltac:(done)) as H4. rewrite Hinj in H3, H4.
    assert (H5 : rdot w g = 0) by (apply (Rmult_eq_reg_l lr); lra). rewrite H5 in H3. apply (Rmult_eq_reg_l (lr * lr)); [lra|]. apply Rgt_not_eq. nra.
  - intros HF. etrans; [exact E|]. f_equal. by apply rmove_zero.
Qed.
(** C76: data that a weight vector explains. *)
Lemma C76_consistent_main : forall (bl : blas real_arith), exact_blas bl ->
  forall (ne size : Z) (lr decay momentum : R) (lowmem : bool) (w prev v : list R) (rows : list (list R)) (epochs : list (list (list nat))),
  length prev = length w -> length v = length w -> Forall (fun x : list R => length x = length w) rows ->
  decay <= 0 -> momentum <= 0 -> 0 <= lr -> lr * sum_squares rows <= 2 ->
  Forall (batches_of (Z.to_nat size) (length rows)) epochs ->
  let y := (fun x => rdot x v) <$> rows in
  exists w', (foldl (sgd_step bl (exact_params ne size lr decay momentum lowmem)) (XR <$> w, XR <$> prev)
                    ((fun q => exact_batch (part_of rows y q)) <$> concat epochs)).1 = XR <$> w' /\
    length w' = length w /\ dist2 w' v <= dist2 w v.
Proof.
  intros bl HB ne size lr decay momentum lowmem w prev v rows epochs Hp Hv HF Hd Hm H0 HS HE y.
  assert (Hy : length y = length rows) by apply fmap_length.
  assert (HP : forall q, q ∈ concat epochs -> batch_ok (length w) (part_of rows y q) /\ sum_squares (pick q rows) <= sum_squares rows).
  { intros q Hq. by apply (part_ok (Z.to_nat size) (length rows) (length w) rows y epochs). }
  set (bs := part_of rows y <$> concat epochs).
  assert (Hbs : Forall (batch_ok (length (w, prev).1)) bs). { apply Forall_fmap, Forall_forall. intros q Hq. by apply HP. }
  exists (run lr decay momentum (w, prev) bs).1. split; [|split].
  - replace ((fun q => exact_batch (part_of rows y q)) <$> concat epochs) with (exact_batch <$> bs) by (unfold bs; by rewrite <- list_fmap_compose).
    etrans; [apply (f_equal fst (exact_run bl HB ne size lr decay momentum lowmem bs (w, prev) Hp Hbs))|]. done.
  - by apply (run_len lr decay momentum bs (w, prev)).
  - apply (run_consistent lr decay momentum Hd Hm v bs H0 (w, prev)); [done|done|]. apply Forall_fmap, Forall_forall. intros q Hq. destruct (HP q Hq) as [H1 H2].
    split; [done|]. split; [|cbn; nra]. cbn. unfold y, images, pick. generalize q. clear. induction q as [|i q IH]; [done|]. cbn. rewrite list_lookup_fmap.
    destruct (rows !! i); cbn; by rewrite IH.
Qed.
(** C77: batches that hold all the data. *)
Lemma C77_convergence_main : forall (bl : blas real_arith), exact_blas bl ->
  forall (ne size : Z) (lr decay momentum : R) (lowmem : bool) (w prev v : list R) (rows : list (list R)) (y : list R) (epochs : list (list (list nat))),
  length prev = length w -> length v = length w -> batch_ok (length w) (rows, y) ->
  decay <= 0 -> momentum <= 0 -> 0 <= lr -> lr * sum_squares rows <= 1 ->
  (0 < length rows)%nat -> (Z.of_nat (length rows) <= size)%Z -> Forall (batches_of (Z.to_nat size) (length rows)) epochs ->
  exists w', (foldl (sgd_step bl (exact_params ne size lr decay momentum lowmem)) (XR <$> w, XR <$> prev)
                    ((fun q => exact_batch (part_of rows y q)) <$> concat epochs)).1 = XR <$> w' /\
    length w' = length w /\ half_sse rows y w' <= half_sse rows y w /\
    2 * lr * INR (length epochs) * (half_sse rows y w' - half_sse rows y v) <= dist2 w v.
Proof.
  intros bl HB ne size lr decay momentum lowmem w prev v rows y epochs Hp Hv Hb Hd Hm H0 HS Hn Hsz HE. destruct Hb as [Hy HF]. cbn [fst snd] in Hy, HF.
  assert (HP : forall q, q ∈ concat epochs -> batch_ok (length w) (part_of rows y q)).
  { intros q Hq. by apply (part_ok (Z.to_nat size) (length rows) (length w) rows y epochs). }
  destruct (full_epochs (Z.to_nat size) (length rows) epochs Hn ltac:(lia) HE) as [Hq Hlen].
  set (bs := part_of rows y <$> concat epochs).
  assert (Hbs : Forall (batch_ok (length (w, prev).1)) bs). { apply Forall_fmap, Forall_forall. intros q Hq'. by apply HP. }
  destruct (run_full lr decay momentum Hd Hm rows y v bs H0 HS Hy (w, prev) Hp Hv HF) as [R1 R2].
  { apply Forall_fmap, Forall_forall. intros q Hq'. split; [by apply HP|]. cbn [part_of fst snd].
    rewrite zip_pick by done. rewrite Forall_forall in Hq. etrans; [apply pick_perm, (Hq _ Hq')|]. 
    assert (EL : length (zip rows y) = length rows) by (rewrite zip_with_length; lia). rewrite <- EL at 1. by rewrite pick_seq0. }
  exists (run lr decay momentum (w, prev) bs).1. split; [|split; [by apply (run_len lr decay momentum bs (w, prev))|split; [done|]]].
  - replace ((fun q => exact_batch (part_of rows y q)) <$> concat epochs) with (exact_batch <$> bs) by (unfold bs; by rewrite <- list_fmap_compose).
    etrans; [apply (f_equal fst (exact_run bl HB ne size lr decay momentum lowmem bs (w, prev) Hp Hbs))|]. done.
  - unfold bs in R2 at 2. rewrite fmap_length, Hlen in R2. cbn [fst] in R2. pose proof (rdot_pos (zip_with Rminus (run lr decay momentum (w, prev) bs).1 v)). unfold dist2 in *. lra.
Qed.
Local Open Scope nat_scope.

(** ** Concrete cases *)
Section wit.
Existing Instance ex_rt.
Definition fdot (xs ys : list f64) : f64 := foldl (fun s p => f64_add s (f64_mul p.1 p.2)) f64_zero (zip xs ys).
Definition fbl : blas f64_arith := Blas f64_arith fdot fdot.
Definition f64_sqrt2 : f64 := SFsqrt 53 1024 (f64_of_Z 2).
Definition f_eighth : f64 := f64_div f64_one (f64_of_Z 8).
Definition lw_params : lr_params f64_arith := LRParams f64_arith 2 f_eighth 3 f64_zero f_half false.
Definition no_lr : linreg := LinReg None [] [].
Definition lw_run (p : lr_params f64_arith) (target : string) (x : dframe * heap) : linreg * heap :=
  match lr_fit fbl elts (fun _ => f64_one) (fun _ _ => 0) x.1 target p x.2 with Ok r => r | Panic => (no_lr, heap0) end.
Definition lw : linreg * heap := lw_run lw_params "b" (ex_d, ex_h).
Definition lw_pred : dframe * heap := run_df (lr_predict fbl elts lw.1 ex_d "y") lw.2.
Definition lw_floats (c : string) (x : dframe * heap) : list f64 := t_floats (abs x.2 x.1) c.

Definition lw_a : f64 := default f64_zero (fit_col f64_arith (ScalerOpt false true true) (lw_floats "b" (ex_d, ex_h))).1.
Definition lw_b : f64 := default f64_zero (fit_col f64_arith (ScalerOpt false true true) (lw_floats "b" (ex_d, ex_h))).2.
Lemma lw_scaler : match lr_scaler lw.1 with
  | Some (Scaler s1 s2) => bool_decide (s1 = ({["_target" := lw_a]} : gmap string f64) /\ s2 = ({["_target" := lw_b]} : gmap string f64))
  | None => false end = true.
Proof. by vm_compute. Qed.
Lemma C59_check_main : wf ex_h ex_d /\ wf lw.2 ex_d /\ NoDup (inds ex_d) /\
  (exists a b, lr_scaler lw.1 = Some (Scaler (A:=f64_arith) {["_target" := a]} {["_target" := b]})) /\
  t_cols (abs lw.2 ex_d) !! (KFloat, "_target") = None /\
  num_keys (abs lw.2 ex_d) (lr_features lw.1) = Some [(KBool, "f")] /\ num_rows ex_d = 4 /\
  length (lr_weights lw.1) = length (lr_features lw.1) /\
  lr_predict fbl elts lw.1 ex_d "y" lw.2 = Ok lw_pred /\
  length (lw_floats "y" lw_pred) = 4 /\ lw_floats "y" lw_pred !! 0 <> lw_floats "y" lw_pred !! 1 /\
  lw_floats "y" lw_pred !! 0 = lw_floats "y" lw_pred !! 2.
Proof.
  split; [exact ex_wf|]. split; [apply (wf_check_sound _ _ 4); by vm_compute|]. split; [apply (bool_decide_unpack _); by vm_compute|].
  split.
  { exists lw_a, lw_b. generalize lw_scaler. destruct (lr_scaler lw.1) as [[s1 s2]|]; [|done]. intros H. apply bool_decide_eq_true in H as [-> ->]. done. }
  do 7 (split; [by vm_compute|]). by vm_compute.
Qed.
Lemma C60_check_main : wf ex_h ex_d /\ is_Some (t_cols (abs ex_h ex_d) !! (KFloat, "b")) /\
  t_cols (abs ex_h ex_d) !! (KFloat, "_target") = None /\ t_cols (abs ex_h ex_d) !! (KBool, "_target") = None /\
  lr_fit fbl elts (fun _ => f64_one) (fun _ _ => 0) ex_d "b" lw_params ex_h = Ok lw /\
  lr_features lw.1 = ["f"] /\ lr_weights lw.1 <> (lw_run (LRParams f64_arith 1 f_eighth 3 f64_zero f_half false) "b" (ex_d, ex_h)).1.(lr_weights).
Proof.
  split; [exact ex_wf|]. split; [apply (bool_decide_unpack _); by vm_compute|]. split; [by vm_compute|]. split; [by vm_compute|]. split; [by vm_compute|].
  split; [by vm_compute|]. intros H. apply (f_equal (fun l => bool_decide (l = lr_weights lw.1))) in H. by vm_compute in H.
Qed.
(** Predict on repeated rows: rows 0 and 2 of the view's source have the same
    features but get different predictions, because the repeated one is scaled
    back twice. *)
Definition lw_rep : dframe * heap := run_df (lr_predict fbl elts lw.1 ex_v "y") ex_vh.
Lemma C59_repeated_refuted_main : exists reg d h v h', wf h d /\
  lr_predict fbl elts reg d "y" h = Ok (v, h') /\ t_num_rows f64_of_val (abs h' v) [(KBool, "f")] = [[f64_one]; [f64_one]; [f64_one]] /\
  lr_features reg = ["f"] /\ t_floats (abs h' v) "y" !! 0 <> t_floats (abs h' v) "y" !! 1.
Proof.
  exists lw.1, ex_v, ex_vh, lw_rep.1, lw_rep.2. split; [exact ex_v_wf|]. split_and!; by vm_compute.
Qed.
(** Predict on a dataframe with a float column "_target": the original column
    is overwritten. *)
Definition w6 : dframe * heap := run_df (let* r := new_raw in
  let* r := b_add KFloat r "_target" [VFloat f_half; VFloat f64_zero] in
  let* r := b_add KBool r "f" [VBool true; VBool false] in to_dataframe r) heap0.
Definition w6_pred : dframe * heap := run_df (lr_predict fbl elts lw.1 w6.1 "y") w6.2.
Lemma C59_original_refuted_main : exists reg d h v h', wf h d /\ lr_predict fbl elts reg d "y" h = Ok (v, h') /\ abs h' d <> abs h d.
Proof.
  exists lw.1, w6.1, w6.2, w6_pred.1, w6_pred.2. split; [apply (wf_check_sound _ _ 2); by vm_compute|]. split; [by vm_compute|].
  intros H. apply (f_equal (fun t => bool_decide (t_floats t "_target" = [f_half; f64_zero]))) in H. by vm_compute in H.
Qed.
(** The result column cannot be called "_target". *)
Definition lw_tg : dframe * heap := run_df (lr_predict fbl elts lw.1 ex_d "_target") ex_h.
Lemma C59_result_name_refuted_main : exists reg d h v h', wf h d /\ lr_predict fbl elts reg d "_target" h = Ok (v, h') /\
  t_cols (abs h' v) !! (KFloat, "_target") = None.
Proof. exists lw.1, ex_d, ex_h, lw_tg.1, lw_tg.2. split; [exact ex_wf|]. split_and!; by vm_compute. Qed.
(** Fit with a feature called "_target": the feature is replaced by the target
    itself, and its own values do not matter. *)
Definition w7 (x : f64) : dframe * heap := run_df (let* r := new_raw in
  let* r := b_add KFloat r "_target" [VFloat x; VFloat f64_zero] in
  let* r := b_add KFloat r "y" [VFloat f_half; VFloat f64_one] in to_dataframe r) heap0.
Lemma C60_feature_name_refuted_main : exists d1 h1 d2 h2, wf h1 d1 /\ wf h2 d2 /\
  t_floats (abs h1 d1) "_target" <> t_floats (abs h2 d2) "_target" /\
  lr_features (lw_run lw_params "y" (d1, h1)).1 = ["_target"] /\
  lr_weights (lw_run lw_params "y" (d1, h1)).1 = lr_weights (lw_run lw_params "y" (d2, h2)).1 /\
  lr_weights (lw_run lw_params "y" (d1, h1)).1 <> lr_weights (lw_run (LRParams f64_arith 0 f_eighth 3 f64_zero f_half false) "y" (d1, h1)).1.
Proof.
  exists (w7 f_half).1, (w7 f_half).2, (w7 f64_one).1, (w7 f64_one).2. split; [apply (wf_check_sound _ _ 2); by vm_compute|].
  split; [apply (wf_check_sound _ _ 2); by vm_compute|]. split; [by vm_compute|]. split; [by vm_compute|]. split; [by vm_compute|].
  intros H. apply (f_equal (fun l => bool_decide (l = lr_weights (lw_run lw_params "y" ((w7 f_half).1, (w7 f_half).2)).1))) in H. by vm_compute in H.
Qed.
(** A target called "_target" cannot be learnt. *)
Lemma C60_target_name_refuted_main : exists d h, wf h d /\ is_Some (t_cols (abs h d) !! (KFloat, "_target")) /\
  lr_fit fbl elts (fun _ => f64_one) (fun _ _ => 0) d "_target" lw_params h = Panic.
Proof.
  exists w6.1, w6.2. split; [apply (wf_check_sound _ _ 2); by vm_compute|]. split; [apply (bool_decide_unpack _); by vm_compute|by vm_compute].
Qed.
(** Epochs, LR and BatchSize left to 0 do not get default values: with 0
    epochs or learning rate 0 the random weights stay, with batch size 0 Fit panics. *)
Lemma C78_defaults_refuted_main : exists d h, wf h d /\
  lr_weights (lw_run (LRParams f64_arith 0 f_eighth 3 f64_zero f64_zero false) "b" (d, h)).1 = [f64_sqrt2] /\
  lr_weights (lw_run (LRParams f64_arith 2 f64_zero 3 f64_zero f64_zero false) "b" (d, h)).1 = [f64_sqrt2] /\
  lr_weights (lw_run (LRParams f64_arith 2 f_eighth 3 f64_zero f64_zero false) "b" (d, h)).1 <> [f64_sqrt2] /\
  lr_fit fbl elts (fun _ => f64_one) (fun _ _ => 0) d "b" (LRParams f64_arith 2 f_eighth 0 f64_zero f64_zero false) h = Panic.
Proof.
  exists ex_d, ex_h. split; [exact ex_wf|]. split; [by vm_compute|]. split; [by vm_compute|]. split; [|by vm_compute].
  intros H. apply (f_equal (fun l => bool_decide (l = [f64_sqrt2]))) in H. by vm_compute in H.
Qed.
End wit.

Local Open Scope R_scope.
(** An exact matrix product exists, and small data meets the hypotheses. *)
Definition xdot (xs ys : list xr) : xr := foldr (fun p s => x_add (x_mul p.1 p.2) s) (XR 0) (zip xs ys).
Definition xbl : blas real_arith := Blas real_arith xdot xdot.
Lemma xbl_exact : exact_blas xbl.
Proof.
  intros xs ys _. assert (E : xdot (XR <$> xs) (XR <$> ys) = XR (rdot xs ys)); [|done]. revert ys. induction xs as [|x xs IH]; intros [|y ys]; try done.
  unfold xdot in *. cbn. change (foldr _ (XR 0) _) with (foldr (fun p s => x_add (x_mul p.1 p.2) s) (XR 0) (zip (XR <$> xs) (XR <$> ys))). rewrite IH. done.
Qed.
Definition xw_rows : list (list R) := [[1]; [2]].
Lemma C75_check_main : exact_blas xbl /\ batch_ok 1 (xw_rows, [2; 4]) /\ sum_squares xw_rows = 5 /\ 1 / 10 * sum_squares xw_rows <= 1 /\
  Forall (batches_of (Z.to_nat 2) 2) [[[1%nat; 0%nat]]; [[0%nat; 1%nat]]] /\
  gradient xw_rows [2; 4] [0] = [-10] /\ half_sse xw_rows [2; 4] [0] = 10 /\ half_sse xw_rows [2; 4] [1] = 5 / 2 /\
  half_sse xw_rows [2; 4] [2] = 0 /\ [2; 4] = (fun x => rdot x [2]) <$> xw_rows.
Proof.
  split; [exact xbl_exact|]. split; [split; [done|by repeat constructor]|]. split; [cbn; lra|]. split; [cbn; lra|].
  split.
  { apply Forall_cons. split; [|apply Forall_cons; split; [|done]]; (split; [|split]).
    - apply Permutation_swap.
    - intros [|i] q H1 H2; cbn in *; lia.
    - intros q [= <-]. cbn. lia.
    - done.
    - intros [|i] q H1 H2; cbn in *; lia.
    - intros q [= <-]. cbn. lia. }
  split; [cbn; f_equal; lra|]. split; [cbn; lra|]. split; [cbn; lra|]. split; [cbn; lra|]. cbn. f_equal; [lra|]. f_equal. lra.
Qed.
