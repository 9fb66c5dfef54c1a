(** How MSE and MAE compare and combine: the property theorem C120. *)
From Coq Require Import Reals.
From Verif Require Import P_PrepMain P_ErrorsMain M_LinReg P_Auto4 P_Check.
Local Open Scope R_scope.

(** C120 In exact arithmetic the errors are numbers. *)
Theorem C120_numbers : forall xs ys : list R, length xs = length ys -> xs <> [] ->
  mse_of real_arith (XR <$> xs) (XR <$> ys) = XR (x_mse xs ys) /\ mae_of real_arith (XR <$> xs) (XR <$> ys) = XR (x_mae xs ys).
Proof. exact C120_numbers_main. Qed.
Print Assumptions C120_numbers.
(** The square of the MAE is at most the MSE. *)
Theorem C120_compare : forall xs ys : list R, length xs = length ys -> xs <> [] -> x_mae xs ys * x_mae xs ys <= x_mse xs ys.
Proof. exact C120_compare_main. Qed.
Print Assumptions C120_compare.
(** Joining parts. *)
Theorem C120_parts : forall xs1 ys1 xs2 ys2 : list R, length xs1 = length ys1 -> length xs2 = length ys2 -> xs1 <> [] -> xs2 <> [] ->
  let n1 := INR (length xs1) in let n2 := INR (length xs2) in
  x_mse (xs1 ++ xs2) (ys1 ++ ys2) = (n1 * x_mse xs1 ys1 + n2 * x_mse xs2 ys2) / (n1 + n2) /\
  x_mae (xs1 ++ xs2) (ys1 ++ ys2) = (n1 * x_mae xs1 ys1 + n2 * x_mae xs2 ys2) / (n1 + n2).
Proof. exact C120_parts_main. Qed.
Print Assumptions C120_parts.
Theorem C120_order : forall xs ys xs' ys' : list R, length xs = length ys -> length xs' = length ys' -> zip xs ys ≡ₚ zip xs' ys' ->
  x_mse xs ys = x_mse xs' ys' /\ x_mae xs ys = x_mae xs' ys'.
Proof. exact C120_order_main. Qed.
Print Assumptions C120_order.
(** What training minimises (C75 to C77) is the MSE of the predictions. *)
Theorem C120_objective : forall (rows : list (list R)) (y w : list R), length y = length rows -> rows <> [] ->
  half_sse rows y w = INR (length rows) / 2 * x_mse ((fun x => rdot x w) <$> rows) y.
Proof. exact C120_objective_main. Qed.
Print Assumptions C120_objective.
Example C120_case : x_mse [1; 5] [2; 2] = 5 /\ x_mae [1; 5] [2; 2] = 2 /\ half_sse [[1]; [2]] [2; 4] [0] = 10 /\ x_mse [0; 0] [2; 4] = 10.
Proof. exact C120_check_main. Qed.
