(** LinearRegressor: algorithms/linear_regression.go. The log output of
    Verbose is not modelled. *)
From Verif Require Export M_Prep M_Batch M_Utils.
From Verif Require Import M_Frame.

(** * Numeric code, over any arithmetic *)
Section arith.
Context (A : arith).

(** LinRegTrainParams (linear_regression.go:18-34). *)
Record lr_params := LRParams {
  lp_epochs : Z; lp_lr : num A; lp_batch : Z; lp_decay : num A; lp_momentum : num A; lp_lowmem : bool }.
(** The inner products of mat.VecDense.MulVec: of a row of a matrix stored
    column by column with a vector, and of a row of a matrix stored row by row
    with a vector. gonum adds up the products in an order that depends on the
    processor; the functions are parameters. *)
Record blas := Blas { dot_t : list (num A) -> list (num A) -> num A; dot_n : list (num A) -> list (num A) -> num A }.
Context (bl : blas).

(** MulVec on the matrix with the given rows; [columns] are the rows of the
    transpose. *)
Definition mul_vec (dot : list (num A) -> list (num A) -> num A) (rows : list (list (num A))) (v : list (num A)) : list (num A) :=
  (fun r => dot r v) <$> rows.
Definition columns (dim : nat) (rows : list (list (num A))) : list (list (num A)) :=
  (fun j => (fun r => default (a_of A 0) (r !! j)) <$> rows) <$> seq 0 dim.
(** v.AddScaledVec(v, alpha, b) (gonum 0.8.2). *)
Definition add_scaled (v : list (num A)) (alpha : num A) (b : list (num A)) : list (num A) :=
  if a_eq A alpha (a_of A 0) then v else zip_with (fun x y => a_add A x (a_mul A alpha y)) v b.
(** One iteration of the loop over the batches (lines 105-128): the weights and
    the previous gradients, from the rows and the targets of the batch. *)
Definition sgd_step (p : lr_params) (st : list (num A) * list (num A)) (b : list (list (num A)) * list (num A))
  : list (num A) * list (num A) :=
  let '(w, prev) := st in
  let '(rows, y) := b in
  let diff := zip_with (a_sub A) (mul_vec (dot_t bl) rows w) y in
  let g := mul_vec (dot_n bl) (columns (length w) rows) diff in
  let momentum := a_lt A (a_of A 0) (lp_momentum p) in
  let g := if momentum then add_scaled g (lp_momentum p) prev else g in
  let prev := if momentum then g else prev in
  let w := add_scaled w (a_opp A (lp_lr p)) g in
  let w := if a_lt A (a_of A 0) (lp_decay p) then (fun x => a_mul A (a_sub A (a_of A 1) (lp_decay p)) x) <$> w else w in
  (w, prev).
(** The initial weights (lines 76-81); [norm]: what rand.NormFloat64 returns. *)
Definition init_weights (norm : nat -> num A) (n : nat) : list (num A) :=
  (fun i => a_mul A (norm i) (a_sqrt A (a_div A (a_of A 2) (a_of A (Z.of_nat n))))) <$> seq 0 n.
End arith.
Arguments lp_epochs {A} l.
Arguments lp_lr {A} l.
Arguments lp_batch {A} l.
Arguments lp_decay {A} l.
Arguments lp_momentum {A} l.
Arguments lp_lowmem {A} l.
Arguments dot_t {A} b.
Arguments dot_n {A} b.
Arguments mul_vec {A} dot rows v.
Arguments columns {A} dim rows.
Arguments add_scaled {A} v alpha b.
Arguments sgd_step {A} bl p st b.
Arguments init_weights {A} norm n.

(** * On dataframes *)
(** LinearRegressor (linear_regression.go:39-44). *)
Record linreg := LinReg { lr_scaler : option (scaler f64_arith); lr_weights : list f64; lr_features : list string }.

Section linreg.
Context {rt : GoRT} (bl : blas f64_arith) (order : gset string -> list string).

(** The loop over the batches (lines 105-128). SubVec panics if there are not
    as many targets as rows; mat.NewVecDense panics if the batch is empty, but
    so does DenseMatrix. *)
Fixpoint batch_steps (p : lr_params f64_arith) (batches : list dframe) (db : dense) (st : list f64 * list f64)
  : M (dense * (list f64 * list f64)) :=
  match batches with
  | [] => ret (db, st)
  | b :: batches =>
      let* y := vec_dense b "_target" in
      let* rd := dense_matrix db b in
      if decide (length y = length rd.1) then
        batch_steps p batches rd.2 (sgd_step bl p st (rd.1, float_of <$> y))
      else panic
  end.
(** The loop over the epochs (lines 95-134); [rnds]: the shuffles. *)
Fixpoint epoch_loop (p : lr_params f64_arith) (d : dframe) (rnds : list (nat -> nat)) (db : dense) (st : list f64 * list f64)
  : M (list f64 * list f64) :=
  match rnds with
  | [] => ret st
  | rnd :: rnds =>
      let* v := shuffle_view rnd d in
      let* v := (if lp_lowmem p then ret v else copy_df v) in
      let* batches := split_view v (lp_batch p) in
      let* r := batch_steps p batches db st in
      epoch_loop p d rnds r.1 r.2
  end.
(** Fit (linear_regression.go:56-136). [rnd e] are the random numbers of the
    shuffle of epoch [e]. *)
Definition lr_fit (norm : nat -> f64) (rnd : Z -> nat -> nat) (d : dframe) (target : string) (p : lr_params f64_arith) : M linreg :=
  let* m := get_mp (r_maps (d_raw d)) in
  let fb := names_of KFloat m ∪ names_of KBool m in
  let* d := column_view d (order fb) in
  let* d := detached_view d [target] in
  let* r := rename (d_raw d) target "_target" in
  let d := set_raw d r in
  let* td := column_view d ["_target"] in
  let* sc := scaler_fit order (ScalerOpt false true true) td in
  scaler_transform order sc d ;;*
  let features := order (fb ∖ {[target]}) in
  let w := init_weights (A:=f64_arith) norm (length features) in
  (* mat.NewVecDense(0, ...) and make with a negative length *)
  if decide (features = [] \/ (lp_batch p < 0)%Z) then panic else
  let* epochs := lift (make_range 1 (lp_epochs p + 1) 1) in
  let* st := epoch_loop p d (rnd <$> epochs) (new_dense features) (w, replicate (length features) f64_zero) in
  ret (LinReg (Some sc) st.1 features).

(** The loop over the batches (lines 160-166). [pred[offset:offset+n]] panics
    when out of range; MulVec panics if the matrix does not have as many columns
    as there are weights. *)
Fixpoint predict_loop (w : list f64) (batchSize : Z) (i : nat) (batches : list dframe) (db : dense) (pred : list f64) : M (list f64) :=
  match batches with
  | [] => ret pred
  | b :: batches =>
      let* rd := dense_matrix db b in
      let offset := (Z.of_nat i * batchSize)%Z in
      if decide ((offset + Z.of_nat (num_rows b) <= Z.of_nat (length pred))%Z /\ length (db_cols rd.2) = length w) then
        predict_loop w batchSize (S i) batches rd.2
          (take (Z.to_nat offset) pred ++ mul_vec (dot_t bl) rd.1 w ++ drop (Z.to_nat offset + num_rows b) pred)
      else panic
  end.
(** Predict (linear_regression.go:146-175). *)
Definition lr_predict (reg : linreg) (d : dframe) (resultColumn : string) : M dframe :=
  let d := reset_index_view d in
  let w := lr_weights reg in
  if decide (w = []) then panic else   (* division by zero *)
  let batchSize := (4194304 `quot` Z.of_nat (length w) `max` 32)%Z in
  let* batches := split_view d batchSize in
  let* pred := predict_loop w batchSize 0 batches (new_dense (lr_features reg)) (replicate (num_rows d) f64_zero) in
  let* res := overwrite KFloat false (view d) "_target" (VFloat <$> pred) in
  match lr_scaler reg with
  | None => panic
  | Some sc =>
      scaler_inverse order sc res ;;*
      let* r := rename (d_raw res) "_target" resultColumn in
      ret (set_raw res r)
  end.
End linreg.
