(** What the experiment of examples/linreg.go should compute. *)
From Verif Require Import M_Example.
From Verif Require Export Spec_LinReg Spec_Auto Spec_Json.

Definition once (j : nat) : nat := 1.
(** A regressor trained on [t], each row being used once per epoch. *)
Definition trained (bl : blas f64_arith) (norm : nat -> f64) (prm : lr_params f64_arith) (target : string)
    (t : table) (a b : f64) (reg : linreg) : Prop :=
  fit_col f64_arith (ScalerOpt false true true) (t_floats t target) = (Some a, Some b) /\
  lr_scaler reg = Some (Scaler (A:=f64_arith) {["_target" := a]} {["_target" := b]}) /\
  NoDup (lr_features reg) /\ (forall c, c ∈ lr_features reg <-> feature t target c) /\
  exists ks epochs, num_keys t (lr_features reg) = Some ks /\
    length epochs = Z.to_nat (lp_epochs prm) /\ Forall (batches_of (Z.to_nat (lp_batch prm)) (t_rows t)) epochs /\
    let n := length (lr_features reg) in
    let w0 := (fun i => f64_mul (norm i) (SFsqrt 53 1024 (f64_div (f64_of_Z 2) (f64_of_Z (Z.of_nat n))))) <$> seq 0 n in
    lr_weights reg =
      (foldl (train_step (A:=f64_arith) (dot_t bl) (dot_n bl) (lp_lr prm) (lp_momentum prm) (lp_decay prm)) (w0, replicate n f64_zero)
             (part_data t ks (fun j => scaled a b (default f64_zero (t_floats t target !! j))) <$> concat epochs)).1.
(** Its predictions for the rows of [t]. *)
Definition predictions (bl : blas f64_arith) (a b : f64) (reg : linreg) (ks : list key) (t : table) : list f64 :=
  (fun row => unscaled a b (dot_t bl row (lr_weights reg))) <$> t_num_rows f64_of_val t ks.

(** Dot products of float64 numbers are float64 numbers. *)
Definition blas_f64 (bl : blas f64_arith) : Prop :=
  forall xs ys, Forall is_f64 xs -> Forall is_f64 ys -> is_f64 (dot_t bl xs ys) /\ is_f64 (dot_n bl xs ys).
Definition params_f64 (prm : lr_params f64_arith) : Prop :=
  is_f64 (lp_lr prm) /\ is_f64 (lp_decay prm) /\ is_f64 (lp_momentum prm).
(** A preprocessor and a regressor that come from the rows of [t] alone; [t1]
    are the prepared rows. *)
Definition learned (bl : blas f64_arith) (norm : nat -> f64) (opt : auto_opt) (prm : lr_params f64_arith) (target : string)
    (t t1 : table) (p : auto) (a b : f64) (reg : linreg) : Prop :=
  auto_fitted opt t p /\ prepared_as once p t t1 /\ trained bl norm prm target t1 a b reg.
(** The number of test rows. *)
Definition test_rows (rows : nat) (ratio : f64) : nat := Z.to_nat (f64_trunc (f64_mul (f64_of_Z (Z.of_nat rows)) ratio)).
(** Parameters that do not work, [n] being the number of training rows and [m]
    that of test rows. *)
Definition bad_parameters (t : table) (ratio : f64) (prm : lr_params f64_arith) (n m : nat) : Prop :=
  f64_lt ratio f64_zero = true \/ f64_lt f64_one ratio = true \/
  (n = 0 /\ exists c, categorical t c) \/
  (lp_batch prm < 0)%Z \/ (lp_epochs prm < 0)%Z \/ ((0 < lp_epochs prm)%Z /\ (lp_batch prm = 0%Z \/ n = 0)) \/
  m = 0.
