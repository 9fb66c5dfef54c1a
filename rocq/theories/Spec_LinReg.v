(** What linear regression should do, independently of the code. *)
From Coq Require Import Reals.
From Verif Require Export Spec Spec_Batch Spec_Prep M_Arith.
Local Open Scope nat_scope.

(** Column [k] replaced or added. *)
Definition t_insert (k : key) (col : list val) (t : table) : table := t_with_cols t (<[k := col]> (t_cols t)).
(** (x + shift) * scale, and what Predict does with a prediction. *)
Definition scaled (shift scale x : f64) : f64 := f64_mul (f64_add x shift) scale.
Definition unscaled (shift scale x : f64) : f64 :=
  f64_mul (f64_add x (f64_mul (SFopp shift) scale)) (f64_div f64_one scale).
(** The columns that are features: float and bool columns except the target. *)
Definition feature (t : table) (target c : string) : Prop :=
  c <> target /\ (is_Some (t_cols t !! (KFloat, c)) \/ is_Some (t_cols t !! (KBool, c))).
(** The positions 0, ..., n-1 in some order, cut into batches of [b], the last
    one having at most [b] and at least one position. *)
Definition batches_of (b n : nat) (parts : list (list nat)) : Prop :=
  concat parts ≡ₚ seq 0 n /\
  (forall i q, parts !! i = Some q -> S i < length parts -> length q = b) /\
  (forall q, last parts = Some q -> 0 < length q <= b).
(** The features and the targets of the rows at the given positions. *)
Definition part_data (t : table) (ks : list key) (target : nat -> f64) (q : list nat) : list (list f64) * list f64 :=
  (t_num_row f64_of_val t ks <$> q, target <$> q).
(** One training step on the rows [rows] with targets [y], component by
    component, [sub], [dot], ... being the operations of some arithmetic. *)
Section step.
Context {A : arith} (dot1 dot2 : list (num A) -> list (num A) -> num A) (lr momentum decay : num A).
Definition nth0 (l : list (num A)) (j : nat) : num A := default (a_of A 0) (l !! j).
Definition axpy (x alpha y : num A) : num A := if a_eq A alpha (a_of A 0) then x else a_add A x (a_mul A alpha y).
Definition step_grad (w prev : list (num A)) (rows : list (list (num A))) (y : list (num A)) (j : nat) : num A :=
  let errors := zip_with (fun x t => a_sub A (dot1 x w) t) rows y in
  let g := dot2 ((fun x => nth0 x j) <$> rows) errors in
  if a_lt A (a_of A 0) momentum then axpy g momentum (nth0 prev j) else g.
Definition step_weight (w prev : list (num A)) (rows : list (list (num A))) (y : list (num A)) (j : nat) : num A :=
  let x := axpy (nth0 w j) (a_opp A lr) (step_grad w prev rows y j) in
  if a_lt A (a_of A 0) decay then a_mul A (a_sub A (a_of A 1) decay) x else x.
Definition train_step (st : list (num A) * list (num A)) (b : list (list (num A)) * list (num A)) : list (num A) * list (num A) :=
  (step_weight st.1 st.2 b.1 b.2 <$> seq 0 (length st.1),
   if a_lt A (a_of A 0) momentum then step_grad st.1 st.2 b.1 b.2 <$> seq 0 (length st.1) else st.2).
End step.

(** * Over the real numbers *)
Local Open Scope R_scope.
Fixpoint rdot (xs ws : list R) : R :=
  match xs, ws with x :: xs, w :: ws => x * w + rdot xs ws | _, _ => 0 end.
(** Half the sum of the squared errors. *)
Fixpoint half_sse (rows : list (list R)) (y : list R) (w : list R) : R :=
  match rows, y with x :: rows, t :: y => (rdot x w - t) ^ 2 / 2 + half_sse rows y w | _, _ => 0 end.
(** The sum of the squares of all features. *)
Fixpoint sum_squares (rows : list (list R)) : R :=
  match rows with x :: rows => rdot x x + sum_squares rows | [] => 0 end.
Definition dist2 (v w : list R) : R := rdot (zip_with Rminus v w) (zip_with Rminus v w).
(** Component [j] of the gradient of [half_sse] at [w]. *)
Fixpoint sse_grad (rows : list (list R)) (y : list R) (w : list R) (j : nat) : R :=
  match rows, y with x :: rows, t :: y => nth j x 0 * (rdot x w - t) + sse_grad rows y w j | _, _ => 0 end.
Definition gradient (rows : list (list R)) (y : list R) (w : list R) : list R := sse_grad rows y w <$> seq 0 (length w).
(** v + a * d *)
Definition rmove (v : list R) (a : R) (d : list R) : list R := zip_with (fun x y => x + a * y) v d.
(** [rows] and [y] are a batch for [n] weights. *)
Definition batch_ok (n : nat) (b : list (list R) * list R) : Prop :=
  length b.2 = length b.1 /\ Forall (fun x : list R => length x = n) b.1.
