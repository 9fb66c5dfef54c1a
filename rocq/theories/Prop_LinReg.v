(** LinearRegressor: the property theorems C59, C60 and C75 to C78. The
    specification is in Spec_LinReg.v. *)
From Coq Require Import Reals.
From Verif Require Import P_PrepMain P_LinRegMain M_LinReg P_Auto4 P_Check.
Local Open Scope nat_scope.

(** C59 Predict. [bl]: the inner products of the BLAS library. *)
Theorem C59_predict_partial : forall (rt : GoRT) (bl : blas f64_arith) (order : gset string -> list string) (Ho : forall X, order X ≡ₚ elements X), forall h d reg a b result, wf h d ->
  lr_scaler reg = Some (Scaler (A:=f64_arith) {["_target" := a]} {["_target" := b]}) ->
  result <> "_target" -> t_cols (abs h d) !! (KFloat, "_target") = None ->
  let panics := num_keys (abs h d) (lr_features reg) = None \/ num_rows d = 0 \/
                lr_features reg = [] \/ length (lr_weights reg) <> length (lr_features reg) in
  match lr_predict bl order reg d result h with
  | Ok (v, h') => ~ panics /\ wf h' v /\ preserved h h' /\ exists ks p,
      num_keys (abs h d) (lr_features reg) = Some ks /\ p ≡ₚ seq 0 (num_rows d) /\
      inds v = pick p (inds d) /\ Sorted le (inds v) /\
      abs h' v = t_insert (KFloat, result)
        (imap (fun j row => VFloat (Nat.iter (reps v j) (unscaled a b) (dot_t bl row (lr_weights reg))))
              (t_num_rows f64_of_val (t_select p (abs h d)) ks)) (t_select p (abs h d))
  | Panic => panics
  end.
Proof. intros rt bl order Ho. exact (C59_predict_partial_main bl order Ho). Qed.
Print Assumptions C59_predict_partial.
Theorem C59_distinct_rows_partial : forall (rt : GoRT) (bl : blas f64_arith) (order : gset string -> list string) (Ho : forall X, order X ≡ₚ elements X), forall h d reg a b result ks, wf h d -> NoDup (inds d) ->
  lr_scaler reg = Some (Scaler (A:=f64_arith) {["_target" := a]} {["_target" := b]}) ->
  result <> "_target" -> t_cols (abs h d) !! (KFloat, "_target") = None ->
  num_keys (abs h d) (lr_features reg) = Some ks -> 0 < num_rows d -> lr_features reg <> [] ->
  length (lr_weights reg) = length (lr_features reg) ->
  exists v h' p, lr_predict bl order reg d result h = Ok (v, h') /\ wf h' v /\ preserved h h' /\
    p ≡ₚ seq 0 (num_rows d) /\ inds v = pick p (inds d) /\ Sorted lt (inds v) /\
    abs h' v = t_insert (KFloat, result)
      ((fun row => VFloat (unscaled a b (dot_t bl row (lr_weights reg)))) <$> t_num_rows f64_of_val (t_select p (abs h d)) ks) (t_select p (abs h d)).
Proof. intros rt bl order Ho. exact (C59_distinct_rows_partial_main bl order Ho). Qed.
Print Assumptions C59_distinct_rows_partial.
Section cases.
Local Existing Instance ex_rt.
Example C59_case : wf ex_h ex_d /\ wf lw.2 ex_d /\ NoDup (inds ex_d) /\
  (exists a b, lr_scaler lw.1 = Some (Scaler (A:=f64_arith) {["_target" := a]} {["_target" := b]})) /\
  t_cols (abs lw.2 ex_d) !! (KFloat, "_target") = None /\
  num_keys (abs lw.2 ex_d) (lr_features lw.1) = Some [(KBool, "f")] /\ num_rows ex_d = 4 /\
  length (lr_weights lw.1) = length (lr_features lw.1) /\
  lr_predict fbl elts lw.1 ex_d "y" lw.2 = Ok lw_pred /\
  length (lw_floats "y" lw_pred) = 4 /\ lw_floats "y" lw_pred !! 0 <> lw_floats "y" lw_pred !! 1 /\
  lw_floats "y" lw_pred !! 0 = lw_floats "y" lw_pred !! 2.
Proof. exact C59_check_main. Qed.
(** Rows that occur several times are scaled back several times. *)
Theorem C59_repeated_refuted : exists reg d h v h', wf h d /\
  lr_predict fbl elts reg d "y" h = Ok (v, h') /\ t_num_rows f64_of_val (abs h' v) [(KBool, "f")] = [[f64_one]; [f64_one]; [f64_one]] /\
  lr_features reg = ["f"] /\ t_floats (abs h' v) "y" !! 0 <> t_floats (abs h' v) "y" !! 1.
Proof. exact C59_repeated_refuted_main. Qed.
Print Assumptions C59_repeated_refuted.
(** A float column "_target" of the input is overwritten. *)
Theorem C59_original_refuted : exists reg d h v h', wf h d /\ lr_predict fbl elts reg d "y" h = Ok (v, h') /\ abs h' d <> abs h d.
Proof. exact C59_original_refuted_main. Qed.
Print Assumptions C59_original_refuted.
(** The result column cannot be called "_target". *)
Theorem C59_result_name_refuted : exists reg d h v h', wf h d /\ lr_predict fbl elts reg d "_target" h = Ok (v, h') /\
  t_cols (abs h' v) !! (KFloat, "_target") = None.
Proof. exact C59_result_name_refuted_main. Qed.
Print Assumptions C59_result_name_refuted.
End cases.

(** C60 Fit. *)
Theorem C60_fit_partial : forall (rt : GoRT) (bl : blas f64_arith) (order : gset string -> list string) (Ho : forall X, order X ≡ₚ elements X), forall norm rnd h d target (p : lr_params f64_arith), wf h d -> is_Some (t_cols (abs h d) !! (KFloat, target)) ->
  target <> "_target" -> t_cols (abs h d) !! (KFloat, "_target") = None -> t_cols (abs h d) !! (KBool, "_target") = None ->
  let t := abs h d in
  let panics := (forall c, ~ feature t target c) \/ (lp_batch p < 0)%Z \/ (lp_epochs p < 0)%Z \/
                (0 < lp_epochs p)%Z /\ (lp_batch p = 0%Z \/ num_rows d = 0) in
  match lr_fit bl order norm rnd d target p h with
  | Ok (reg, h') => ~ panics /\ preserved h h' /\ exists a b ks epochs,
      fit_col f64_arith (ScalerOpt false true true) (t_floats t target) = (Some a, Some b) /\
      lr_scaler reg = Some (Scaler (A:=f64_arith) {["_target" := a]} {["_target" := b]}) /\
      NoDup (lr_features reg) /\ (forall c, c ∈ lr_features reg <-> feature t target c) /\
      num_keys t (lr_features reg) = Some ks /\ length (lr_weights reg) = length (lr_features reg) /\
      length epochs = Z.to_nat (lp_epochs p) /\ Forall (batches_of (Z.to_nat (lp_batch p)) (num_rows d)) epochs /\
      let n := length (lr_features reg) in
      let w0 := (fun i => f64_mul (norm i) (SFsqrt 53 1024 (f64_div (f64_of_Z 2) (f64_of_Z (Z.of_nat n))))) <$> seq 0 n in
      lr_weights reg =
        (foldl (train_step (A:=f64_arith) (dot_t bl) (dot_n bl) (lp_lr p) (lp_momentum p) (lp_decay p)) (w0, replicate n f64_zero)
               (part_data t ks (fun j => Nat.iter (reps d j) (scaled a b) (default f64_zero (t_floats t target !! j))) <$> concat epochs)).1
  | Panic => panics
  end.
Proof. intros rt bl order Ho. exact (C60_fit_partial_main bl order Ho). Qed.
Print Assumptions C60_fit_partial.
Theorem C60_missing_target : forall (rt : GoRT) (bl : blas f64_arith) (order : gset string -> list string) (Ho : forall X, order X ≡ₚ elements X), forall norm rnd h d target (p : lr_params f64_arith), wf h d ->
  t_cols (abs h d) !! (KFloat, target) = None -> t_cols (abs h d) !! (KBool, target) = None ->
  (exists c, is_Some (t_cols (abs h d) !! (KFloat, c)) \/ is_Some (t_cols (abs h d) !! (KBool, c))) ->
  target <> "_target" ->
  lr_fit bl order norm rnd d target p h = Panic.
Proof. intros rt bl order Ho. exact (C60_missing_target_main bl order Ho). Qed.
Print Assumptions C60_missing_target.
(** The loop body is one training step, in any arithmetic. *)
Theorem C60_step : forall (A : arith) (bl : blas A) (p : lr_params A) (w prev : list (num A)) (rows : list (list (num A))) (y : list (num A)),
  length prev = length w ->
  sgd_step bl p (w, prev) (rows, y) = train_step (dot_t bl) (dot_n bl) (lp_lr p) (lp_momentum p) (lp_decay p) (w, prev) (rows, y).
Proof. exact C60_step_main. Qed.
Print Assumptions C60_step.
Section cases.
Local Existing Instance ex_rt.
Example C60_case : wf ex_h ex_d /\ is_Some (t_cols (abs ex_h ex_d) !! (KFloat, "b")) /\
  t_cols (abs ex_h ex_d) !! (KFloat, "_target") = None /\ t_cols (abs ex_h ex_d) !! (KBool, "_target") = None /\
  lr_fit fbl elts (fun _ => f64_one) (fun _ _ => 0) ex_d "b" lw_params ex_h = Ok lw /\
  lr_features lw.1 = ["f"] /\ lr_weights lw.1 <> (lw_run (LRParams f64_arith 1 f_eighth 3 f64_zero f_half false) "b" (ex_d, ex_h)).1.(lr_weights).
Proof. exact C60_check_main. Qed.
(** A feature called "_target" is replaced by the target. *)
Theorem C60_feature_name_refuted : exists d1 h1 d2 h2, wf h1 d1 /\ wf h2 d2 /\
  t_floats (abs h1 d1) "_target" <> t_floats (abs h2 d2) "_target" /\
  lr_features (lw_run lw_params "y" (d1, h1)).1 = ["_target"] /\
  lr_weights (lw_run lw_params "y" (d1, h1)).1 = lr_weights (lw_run lw_params "y" (d2, h2)).1 /\
  lr_weights (lw_run lw_params "y" (d1, h1)).1 <> lr_weights (lw_run (LRParams f64_arith 0 f_eighth 3 f64_zero f_half false) "y" (d1, h1)).1.
Proof. exact C60_feature_name_refuted_main. Qed.
Print Assumptions C60_feature_name_refuted.
(** A target called "_target" makes Fit panic. *)
Theorem C60_target_name_refuted : exists d h, wf h d /\ is_Some (t_cols (abs h d) !! (KFloat, "_target")) /\
  lr_fit fbl elts (fun _ => f64_one) (fun _ _ => 0) d "_target" lw_params h = Panic.
Proof. exact C60_target_name_refuted_main. Qed.
Print Assumptions C60_target_name_refuted.

(** C78 Zero parameters do not get default values. *)
Theorem C78_defaults_refuted : exists d h, wf h d /\
  lr_weights (lw_run (LRParams f64_arith 0 f_eighth 3 f64_zero f64_zero false) "b" (d, h)).1 = [f64_sqrt2] /\
  lr_weights (lw_run (LRParams f64_arith 2 f64_zero 3 f64_zero f64_zero false) "b" (d, h)).1 = [f64_sqrt2] /\
  lr_weights (lw_run (LRParams f64_arith 2 f_eighth 3 f64_zero f64_zero false) "b" (d, h)).1 <> [f64_sqrt2] /\
  lr_fit fbl elts (fun _ => f64_one) (fun _ _ => 0) d "b" (LRParams f64_arith 2 f_eighth 0 f64_zero f64_zero false) h = Panic.
Proof. exact C78_defaults_refuted_main. Qed.
Print Assumptions C78_defaults_refuted.
End cases.

Local Open Scope R_scope.
(** C60, C75, C76, C77 in exact arithmetic. *)
Theorem C60_exact_step : forall (bl : blas real_arith), exact_blas bl ->
  forall (epochs size : Z) (lr decay momentum : R) (lowmem : bool) (w prev : list R) (b : list (list R) * list R),
  length prev = length w -> batch_ok (length w) b ->
  exists w' prev', sgd_step bl (exact_params epochs size lr decay momentum lowmem) (XR <$> w, XR <$> prev) (exact_batch b) = (XR <$> w', XR <$> prev') /\
    let g j := sse_grad b.1 b.2 w j + Rmax 0 momentum * nth j prev 0 in
    length w' = length w /\ length prev' = length w /\
    (forall j, (j < length w)%nat -> nth j w' 0 = (1 - Rmax 0 decay) * (nth j w 0 - lr * g j)) /\
    (0 < momentum -> forall j, (j < length w)%nat -> nth j prev' 0 = g j).
Proof. exact C60_exact_step_main. Qed.
Print Assumptions C60_exact_step.
Theorem C60_gradient : forall (rows : list (list R)) (y w : list R) (j : nat), batch_ok (length w) (rows, y) -> (j < length w)%nat ->
  derivable_pt_lim (fun z => half_sse rows y (<[j := z]> w)) (nth j w 0) (sse_grad rows y w j).
Proof. exact C60_gradient_main. Qed.
Print Assumptions C60_gradient.
(** C75 One step. *)
Theorem C75_descent : forall (bl : blas real_arith), exact_blas bl ->
  forall (epochs size : Z) (lr decay momentum : R) (lowmem : bool) (w prev : list R) (b : list (list R) * list R),
  length prev = length w -> batch_ok (length w) b -> decay <= 0 -> momentum <= 0 -> 0 <= lr -> lr * sum_squares b.1 <= 2 ->
  exists w', (sgd_step bl (exact_params epochs size lr decay momentum lowmem) (XR <$> w, XR <$> prev) (exact_batch b)).1 = XR <$> w' /\
    half_sse b.1 b.2 w' + lr * (1 - lr * sum_squares b.1 / 2) * rdot (gradient b.1 b.2 w) (gradient b.1 b.2 w) <= half_sse b.1 b.2 w.
Proof. exact C75_descent_main. Qed.
Print Assumptions C75_descent.
Theorem C75_minimiser : forall (bl : blas real_arith), exact_blas bl ->
  forall (epochs size : Z) (lr decay momentum : R) (lowmem : bool) (w prev : list R) (b : list (list R) * list R),
  length prev = length w -> batch_ok (length w) b -> decay <= 0 -> momentum <= 0 -> 0 < lr ->
  (sgd_step bl (exact_params epochs size lr decay momentum lowmem) (XR <$> w, XR <$> prev) (exact_batch b)).1 = XR <$> w <->
  forall v, length v = length w -> half_sse b.1 b.2 w <= half_sse b.1 b.2 v.
Proof. exact C75_minimiser_main. Qed.
Print Assumptions C75_minimiser.
(** C76 Data that some weights explain. *)
Theorem C76_consistent : forall (bl : blas real_arith), exact_blas bl ->
  forall (ne size : Z) (lr decay momentum : R) (lowmem : bool) (w prev v : list R) (rows : list (list R)) (epochs : list (list (list nat))),
  length prev = length w -> length v = length w -> Forall (fun x : list R => length x = length w) rows ->
  decay <= 0 -> momentum <= 0 -> 0 <= lr -> lr * sum_squares rows <= 2 ->
  Forall (batches_of (Z.to_nat size) (length rows)) epochs ->
  let y := (fun x => rdot x v) <$> rows in
  exists w', (foldl (sgd_step bl (exact_params ne size lr decay momentum lowmem)) (XR <$> w, XR <$> prev)
                    ((fun q => exact_batch (part_of rows y q)) <$> concat epochs)).1 = XR <$> w' /\
    length w' = length w /\ dist2 w' v <= dist2 w v.
Proof. exact C76_consistent_main. Qed.
Print Assumptions C76_consistent.
(** C77 Batches that hold all the data. *)
Theorem C77_convergence : forall (bl : blas real_arith), exact_blas bl ->
  forall (ne size : Z) (lr decay momentum : R) (lowmem : bool) (w prev v : list R) (rows : list (list R)) (y : list R) (epochs : list (list (list nat))),
  length prev = length w -> length v = length w -> batch_ok (length w) (rows, y) ->
  decay <= 0 -> momentum <= 0 -> 0 <= lr -> lr * sum_squares rows <= 1 ->
  (0 < length rows)%nat -> (Z.of_nat (length rows) <= size)%Z -> Forall (batches_of (Z.to_nat size) (length rows)) epochs ->
  exists w', (foldl (sgd_step bl (exact_params ne size lr decay momentum lowmem)) (XR <$> w, XR <$> prev)
                    ((fun q => exact_batch (part_of rows y q)) <$> concat epochs)).1 = XR <$> w' /\
    length w' = length w /\ half_sse rows y w' <= half_sse rows y w /\
    2 * lr * INR (length epochs) * (half_sse rows y w' - half_sse rows y v) <= dist2 w v.
Proof. exact C77_convergence_main. Qed.
Print Assumptions C77_convergence.
(** The hypotheses hold for two rows and learning rate 1/10. *)
Example C75_case : exact_blas xbl /\ batch_ok 1 (xw_rows, [2; 4]) /\ sum_squares xw_rows = 5 /\ 1 / 10 * sum_squares xw_rows <= 1 /\
  Forall (batches_of (Z.to_nat 2) 2) [[[1%nat; 0%nat]]; [[0%nat; 1%nat]]] /\
  gradient xw_rows [2; 4] [0] = [-10] /\ half_sse xw_rows [2; 4] [0] = 10 /\ half_sse xw_rows [2; 4] [1] = 5 / 2 /\
  half_sse xw_rows [2; 4] [2] = 0 /\ [2; 4] = (fun x => rdot x [2]) <$> xw_rows.
Proof. exact C75_check_main. Qed.
