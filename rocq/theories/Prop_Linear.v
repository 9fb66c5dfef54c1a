(** Training is linear in the targets: the property theorem C123. *)
From Coq Require Import Reals.
From Verif Require Import P_PrepMain P_LinearMain M_LinReg P_Auto4 P_Check.
Local Open Scope R_scope.

(** C123 Training with a combination of targets, from the same combination of
    weights, gives that combination of the trained weights. *)
Theorem C123_linear : forall (bl : blas real_arith), exact_blas bl ->
  forall (ne size : Z) (lr decay momentum : R) (lowmem : bool) (a b : R) (w1 w2 p1 p2 : list R) (qs : list batch2),
  length p1 = length w1 -> length w2 = length w1 -> length p2 = length w1 -> Forall (batch2_ok (length w1)) qs ->
  let train w p (y : batch2 -> list R) := foldl (sgd_step bl (exact_params ne size lr decay momentum lowmem)) (XR <$> w, XR <$> p) ((fun q => exact_batch (q.1, y q)) <$> qs) in
  exists u1 u2 v1 v2, train w1 p1 (fun q => q.2.1) = (XR <$> u1, XR <$> v1) /\ train w2 p2 (fun q => q.2.2) = (XR <$> u2, XR <$> v2) /\
    length u1 = length w1 /\ length u2 = length w1 /\
    train (mix a b w1 w2) (mix a b p1 p2) (fun q => mix a b q.2.1 q.2.2) = (XR <$> mix a b u1 u2, XR <$> mix a b v1 v2).
Proof. exact C123_linear_main. Qed.
Print Assumptions C123_linear.
(** From zero weights, targets [k] times as large give weights [k] times as large. *)
Theorem C123_scaled : forall (bl : blas real_arith), exact_blas bl ->
  forall (ne size : Z) (lr decay momentum : R) (lowmem : bool) (k : R) (n : nat) (bs : list (list (list R) * list R)), Forall (batch_ok n) bs ->
  let train bs := foldl (sgd_step bl (exact_params ne size lr decay momentum lowmem)) (XR <$> replicate n 0, XR <$> replicate n 0) (exact_batch <$> bs) in
  exists u v, length u = n /\ train bs = (XR <$> u, XR <$> v) /\
    train ((fun b => (b.1, (fun t => k * t) <$> b.2)) <$> bs) = (XR <$> ((fun x => k * x) <$> u), XR <$> ((fun x => k * x) <$> v)).
Proof. exact C123_scaled_main. Qed.
Print Assumptions C123_scaled.
Example C123_case : exact_blas xbl /\ batch2_ok 1 (xw_rows, ([2; 4], [1; 0])) /\ mix 2 1 [2; 4] [1; 0] = [2 * 2 + 1 * 1; 2 * 4 + 1 * 0].
Proof. exact C123_check_main. Qed.
