(** Training and the order of the rows: the property theorem C118. *)
From Coq Require Import Reals.
From Verif Require Import P_PrepMain P_OrderMain M_LinReg P_Auto4 P_Check.
Local Open Scope R_scope.

(** C118 Batches that hold all rows, in exact arithmetic. *)
Theorem C118_order : forall (bl : blas real_arith), exact_blas bl ->
  forall (ne size : Z) (lr decay momentum : R) (lowmem : bool) (w prev : list R) (rows rows' : list (list R)) (y y' : list R) (epochs epochs' : list (list (list nat))),
  length prev = length w -> batch_ok (length w) (rows, y) -> batch_ok (length w) (rows', y') -> zip rows y ≡ₚ zip rows' y' ->
  (0 < length rows)%nat -> (Z.of_nat (length rows) <= size)%Z -> length epochs = length epochs' ->
  Forall (batches_of (Z.to_nat size) (length rows)) epochs -> Forall (batches_of (Z.to_nat size) (length rows')) epochs' ->
  foldl (sgd_step bl (exact_params ne size lr decay momentum lowmem)) (XR <$> w, XR <$> prev) ((fun q => exact_batch (part_of rows y q)) <$> concat epochs) =
  foldl (sgd_step bl (exact_params ne size lr decay momentum lowmem)) (XR <$> w, XR <$> prev) ((fun q => exact_batch (part_of rows' y' q)) <$> concat epochs').
Proof. exact C118_order_main. Qed.
Print Assumptions C118_order.
Example C118_case : exact_blas xbl /\ batch_ok 1 (xw_rows, [2; 4]) /\ batch_ok 1 (reverse xw_rows, [4; 2]) /\ zip xw_rows [2; 4] ≡ₚ zip (reverse xw_rows) [4; 2] /\
  Forall (batches_of (Z.to_nat 2) 2) [[[1%nat; 0%nat]]; [[0%nat; 1%nat]]] /\ Forall (batches_of (Z.to_nat 2) 2) [[[0%nat; 1%nat]]; [[0%nat; 1%nat]]].
Proof. exact C118_check_main. Qed.
(** Smaller batches. *)
Theorem C118_batches_refuted : exists p p' : list nat, p ≡ₚ p' /\ ow p = [f_half] /\ ow p' = [f64_mul f_half f_half] /\ ow p <> ow p'.
Proof. exact C118_batches_refuted_main. Qed.
Print Assumptions C118_batches_refuted.
