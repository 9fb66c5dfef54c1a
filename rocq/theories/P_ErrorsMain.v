(** C120: how MSE and MAE compare and combine, in exact arithmetic. *)
From Coq Require Import Reals Psatz.
From Verif Require Import P_PrepMain P_Check.
From Verif Require Export P_LinRegMain.
From stdpp Require Import strings list.
From Verif Require Import M_LinReg P_Auto4 P_Check.
Local Open Scope R_scope.

(** The two errors as numbers. *)
Definition x_mse (xs ys : list R) : R := match mse_of real_arith (XR <$> xs) (XR <$> ys) with XR r => r | _ => 0 end.
Definition x_mae (xs ys : list R) : R := match mae_of real_arith (XR <$> xs) (XR <$> ys) with XR r => r | _ => 0 end.
Lemma x_mse_eq xs ys : length xs = length ys -> xs <> [] -> mse_of real_arith (XR <$> xs) (XR <$> ys) = XR (x_mse xs ys) /\ x_mse xs ys = r_mean (sq_errors xs ys).
Proof. intros H Hn. destruct (C61_documented_means_main xs ys H Hn) as (H1 & _). unfold x_mse. by rewrite H1. Qed.
Lemma x_mae_eq xs ys : length xs = length ys -> xs <> [] -> mae_of real_arith (XR <$> xs) (XR <$> ys) = XR (x_mae xs ys) /\ x_mae xs ys = r_mean (abs_errors xs ys).
Proof. intros H Hn. destruct (C61_documented_means_main xs ys H Hn) as (_ & H1 & _). unfold x_mae. by rewrite H1. Qed.

Lemma r_sum_nil : r_sum [] = 0.
Proof. done. Qed.
Lemma r_sum_perm xs ys : xs ≡ₚ ys -> r_sum xs = r_sum ys.
Proof. induction 1; rewrite ?r_sum_cons; lra. Qed.
(** (sum |x|)^2 <= n sum x^2 *)
Lemma square_of_sum (l : list R) : r_sum l * r_sum l <= INR (length l) * r_sum ((fun x => x * x) <$> l).
Proof.
  assert (G : forall a, 2 * a * r_sum l <= INR (length l) * (a * a) + r_sum ((fun x => x * x) <$> l)).
  { intros a. induction l as [|x l IH]; [cbn; rewrite r_sum_nil; lra|]. rewrite fmap_cons, !r_sum_cons. cbn [length]. rewrite S_INR.
    pose proof (Rle_0_sqr (x - a)) as Hs. unfold Rsqr in Hs. lra. }
  destruct l as [|x l]; [cbn; rewrite r_sum_nil; lra|]. set (n := INR (length (x :: l))) in *. set (s := r_sum (x :: l)) in *. set (q := r_sum (_ <$> _)) in *.
  assert (Hn : 0 < n) by (apply lt_0_INR; simpl; lia). specialize (G (s / n)).
  assert (E1 : 2 * (s / n) * s = 2 * (s * s) / n) by (field; lra). assert (E2 : n * (s / n * (s / n)) = s * s / n) by (field; lra). rewrite E1, E2 in G.
  assert (H : s * s / n <= q) by lra. apply (Rmult_le_compat_l n) in H; [|lra]. replace (n * (s * s / n)) with (s * s) in H by (field; lra). exact H.
Qed.
Lemma abs_sq xs ys : (fun x => x * x) <$> abs_errors xs ys = sq_errors xs ys.
Proof. unfold abs_errors, sq_errors. rewrite <- list_fmap_compose. apply list_fmap_ext. intros _ [a b] _. unfold compose. cbn. rewrite <- Rabs_mult. apply Rabs_pos_eq. pose proof (Rle_0_sqr (a - b)) as Hs. exact Hs. Qed.

Lemma C120_compare_main : forall xs ys : list R, length xs = length ys -> xs <> [] -> x_mae xs ys * x_mae xs ys <= x_mse xs ys.
Proof.
  intros xs ys H Hn. rewrite (proj2 (x_mse_eq _ _ H Hn)), (proj2 (x_mae_eq _ _ H Hn)). unfold r_mean.
  pose proof (square_of_sum (abs_errors xs ys)) as HS. rewrite abs_sq in HS.
  assert (Hl : length (abs_errors xs ys) = length xs) by (unfold abs_errors; rewrite fmap_length, zip_with_length; lia).
  assert (Hl' : length (sq_errors xs ys) = length xs) by (unfold sq_errors; rewrite fmap_length, zip_with_length; lia). rewrite Hl in *. rewrite Hl'.
  assert (Hp : 0 < INR (length xs)) by (apply lt_0_INR; destruct xs; [done|simpl; lia]). set (n := INR (length xs)) in *. set (s := r_sum (abs_errors xs ys)) in *. set (q := r_sum (sq_errors xs ys)) in *.
  replace (s / n * (s / n)) with (s * s / (n * n)) by (field; lra). replace (q / n) with (n * q / (n * n)) by (field; lra). unfold Rdiv. apply Rmult_le_compat_r; [|done].
  left. apply Rinv_0_lt_compat. nra.
Qed.
(** Parts: the error of the whole is the mean of the errors of the parts,
    weighted by their sizes. *)
Lemma C120_parts_main : forall xs1 ys1 xs2 ys2 : list R, length xs1 = length ys1 -> length xs2 = length ys2 -> xs1 <> [] -> xs2 <> [] ->
  let n1 := INR (length xs1) in let n2 := INR (length xs2) in
  x_mse (xs1 ++ xs2) (ys1 ++ ys2) = (n1 * x_mse xs1 ys1 + n2 * x_mse xs2 ys2) / (n1 + n2) /\
  x_mae (xs1 ++ xs2) (ys1 ++ ys2) = (n1 * x_mae xs1 ys1 + n2 * x_mae xs2 ys2) / (n1 + n2).
Proof.
  intros xs1 ys1 xs2 ys2 H1 H2 Hn1 Hn2 n1 n2.
  assert (H : length (xs1 ++ xs2) = length (ys1 ++ ys2)) by (rewrite !app_length; lia). assert (Hn : xs1 ++ xs2 <> []) by (by destruct xs1).
  assert (Hp1 : 0 < n1) by (apply lt_0_INR; destruct xs1; [done|simpl; lia]). assert (Hp2 : 0 < n2) by (apply lt_0_INR; destruct xs2; [done|simpl; lia]).
  rewrite (proj2 (x_mse_eq _ _ H Hn)), (proj2 (x_mae_eq _ _ H Hn)), (proj2 (x_mse_eq _ _ H1 Hn1)), (proj2 (x_mae_eq _ _ H1 Hn1)), (proj2 (x_mse_eq _ _ H2 Hn2)), (proj2 (x_mae_eq _ _ H2 Hn2)).
  unfold r_mean, sq_errors, abs_errors. rewrite !fmap_length, !zip_with_length. rewrite <- H, <- H1, <- H2, !Nat.min_id. rewrite app_length, plus_INR.
  rewrite zip_with_app by done. rewrite !fmap_app, !r_sum_app. fold n1 n2. split; field; lra.
Qed.
(** The order of the rows does not matter. *)
Lemma C120_order_main : forall xs ys xs' ys' : list R, length xs = length ys -> length xs' = length ys' -> zip xs ys ≡ₚ zip xs' ys' ->
  x_mse xs ys = x_mse xs' ys' /\ x_mae xs ys = x_mae xs' ys'.
Proof.
  intros xs ys xs' ys' H H' HP. assert (HL : length xs = length xs') by (apply Permutation_length in HP; rewrite !zip_with_length in HP; lia).
  destruct xs as [|x xs]; [destruct xs'; [destruct ys, ys'; done|done]|]. assert (Hn : x :: xs <> []) by done. assert (Hn' : xs' <> []) by (by destruct xs').
  rewrite (proj2 (x_mse_eq _ _ H Hn)), (proj2 (x_mae_eq _ _ H Hn)), (proj2 (x_mse_eq _ _ H' Hn')), (proj2 (x_mae_eq _ _ H' Hn')).
  unfold r_mean, sq_errors, abs_errors. rewrite !fmap_length, !(Permutation_length HP). split; f_equal; apply r_sum_perm; by rewrite HP.
Qed.
(** Training minimises the MSE: half the sum of squares of C75 to C77 is the
    MSE of the predictions but for a constant factor. *)
Lemma half_sse_sum rows : forall y w, length y = length rows -> half_sse rows y w = r_sum (sq_errors ((fun x => rdot x w) <$> rows) y) / 2.
Proof.
  induction rows as [|x rows IH]; intros [|t y] w H; try done; [cbn; rewrite r_sum_nil; lra|]. cbn [half_sse]. rewrite IH by (simpl in H; lia). rewrite fmap_cons. unfold sq_errors. cbn [zip zip_with]. rewrite fmap_cons, r_sum_cons. cbn [fst snd]. lra.
Qed.
Lemma C120_objective_main : forall (rows : list (list R)) (y w : list R), length y = length rows -> rows <> [] ->
  half_sse rows y w = INR (length rows) / 2 * x_mse ((fun x => rdot x w) <$> rows) y.
Proof.
  intros rows y w H Hn. assert (Hl : length ((fun x => rdot x w) <$> rows) = length y) by (rewrite fmap_length; lia). assert (Hn' : (fun x => rdot x w) <$> rows <> []) by (by destruct rows).
  rewrite (proj2 (x_mse_eq _ _ Hl Hn')), half_sse_sum by done. unfold r_mean. replace (length (sq_errors _ y)) with (length rows) by (unfold sq_errors; rewrite fmap_length, zip_with_length, fmap_length; lia).
  field. apply not_0_INR. by destruct rows.
Qed.
Lemma C120_numbers_main : forall xs ys : list R, length xs = length ys -> xs <> [] ->
  mse_of real_arith (XR <$> xs) (XR <$> ys) = XR (x_mse xs ys) /\ mae_of real_arith (XR <$> xs) (XR <$> ys) = XR (x_mae xs ys).
Proof. intros xs ys H Hn. split; [apply (x_mse_eq _ _ H Hn)|apply (x_mae_eq _ _ H Hn)]. Qed.
Lemma C120_check_main : x_mse [1; 5] [2; 2] = 5 /\ x_mae [1; 5] [2; 2] = 2 /\ half_sse [[1]; [2]] [2; 4] [0] = 10 /\ x_mse [0; 0] [2; 4] = 10.
Proof.
  assert (HS : forall a b : R, r_sum [a; b] = a + b) by (intros a b; rewrite !r_sum_cons, r_sum_nil; lra).
  rewrite (proj2 (x_mse_eq [1; 5] [2; 2] eq_refl ltac:(done))), (proj2 (x_mae_eq [1; 5] [2; 2] eq_refl ltac:(done))), (proj2 (x_mse_eq [0; 0] [2; 4] eq_refl ltac:(done))).
  unfold r_mean, sq_errors, abs_errors. cbn [zip zip_with fmap list_fmap fst snd length]. rewrite !HS. cbn [half_sse rdot INR].
  rewrite (Rabs_left (1 - 2)), (Rabs_right (5 - 2)) by lra. repeat split; lra.
Qed.
