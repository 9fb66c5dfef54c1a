(** Float64 statistics of whole numbers: the property theorem C124. *)
From Coq Require Import Reals.
From Flocq Require Import Core BinarySingleNaN.
From Verif Require Import P_Float P_WholeMain M_Prep P_Check.
Local Open Scope R_scope.

(** C124 The mean is rounded once. *)
Theorem C124_mean : forall (os : list (option Z)) (vs : list f64), Forall2 whole_or_nan os vs ->
  let zs := known os in zs <> [] -> (z_sum (Z.abs <$> zs) <= 2 ^ 53)%Z -> (Z.of_nat (length zs) <= 2 ^ 53)%Z ->
  nearest (IZR (z_sum zs) / IZR (Z.of_nat (length zs))) (mean_of f64_arith vs).
Proof. exact C124_mean_main. Qed.
Print Assumptions C124_mean.
(** So are the mean squared error and the mean absolute error. *)
Theorem C124_errors : forall (as_ bs : list Z) (xs ys : list f64), Forall2 whole as_ xs -> Forall2 whole bs ys ->
  length as_ = length bs -> as_ <> [] -> (Z.of_nat (length as_) <= 2 ^ 53)%Z ->
  (let sq := z_sum (zip_with (fun a b => (a - b) * (a - b))%Z as_ bs) in (sq <= 2 ^ 53)%Z -> nearest (IZR sq / IZR (Z.of_nat (length as_))) (mse_of f64_arith xs ys)) /\
  (let ab := z_sum (zip_with (fun a b => Z.abs (a - b)) as_ bs) in (ab <= 2 ^ 53)%Z -> nearest (IZR ab / IZR (Z.of_nat (length as_))) (mae_of f64_arith xs ys)).
Proof. exact C124_errors_main. Qed.
Print Assumptions C124_errors.
(** Int and bool columns hold such numbers after their conversion. *)
Theorem C124_converted : forall z : Z, (Z.abs z <= 2 ^ 53)%Z -> whole z (f64_of_Z z).
Proof. exact C124_converted_main. Qed.
Print Assumptions C124_converted.
Example C124_case : Forall2 whole_or_nan [Some 1%Z; None; Some (-3)%Z; Some 4%Z] [fz 1; S754_nan; fz (-3); fz 4] /\
  mean_of f64_arith [fz 1; S754_nan; fz (-3); fz 4] = f64_div (fz 2) (fz 3) /\ Forall2 whole [0; 1; 1]%Z [fz 0; fz 1; fz 1] /\ Forall2 whole [0; 0; 3]%Z [fz 0; fz 0; fz 3] /\
  mse_of f64_arith [fz 0; fz 1; fz 1] [fz 0; fz 0; fz 3] = f64_div (fz 5) (fz 3) /\ mae_of f64_arith [fz 0; fz 1; fz 1] [fz 0; fz 0; fz 3] = fz 1.
Proof. exact C124_check_main. Qed.
(** Larger sums are rounded on the way, and the order of the rows matters. *)
Theorem C124_large_refuted : exists (zs zs' : list Z) (vs vs' : list f64), Forall2 whole zs vs /\ Forall2 whole zs' vs' /\ zs ≡ₚ zs' /\ z_sum zs = 4%Z /\ length zs = 4%nat /\
  mean_of f64_arith vs' = fz 1 /\ mean_of f64_arith vs = f64_div (fz 3) (fz 4).
Proof. exact C124_large_refuted_main. Qed.
Print Assumptions C124_large_refuted.
