(** Scaler, imputer, hash encoder and evaluation: the property theorems C50 -
    C54, C61, C72 and C73. The specification is in Spec_Prep.v. *)
From Coq Require Import Reals.
From Verif Require Import P_PrepMain.
Local Existing Instance ex_rt.

(** C50 Fit computes shift and scale of every float column, in any iteration
    order and with any schedule of the workers. *)
Theorem C50_fit : forall (order : gset string -> list string) (opt : scaler_opt) (h : heap) (d : dframe),
  wf h d -> (forall X, order X ≡ₚ elements X) ->
  exists sc, scaler_fit order opt d h = Ok (sc, h) /\ fits opt (abs h d) sc /\
    let keys := order (names_of KFloat (mp h (r_maps (d_raw d)))) in
    let prog := fit_job (fit_col f64_arith opt) (mp h (r_maps (d_raw d))) d in
    ("" ∉ keys -> (1 <= actual_max_cpu (d_raw d))%Z ->
     forall rnd q w m s, create_queue rnd keys (actual_max_cpu (d_raw d)) = (q, w) ->
      steps true (length keys) prog m (pool_init q w h) s ->
      m <= (num_rows d + 4) * length keys + Z.to_nat w + 1 /\ p_crash s = false /\
      (closed (length keys) s -> p_heap s = h /\ collect_fit f64_arith (p_got s) = sc) /\
      (~ closed (length keys) s -> exists s', step true (length keys) prog s s')).
Proof. exact C50_fit_main. Qed.
Print Assumptions C50_fit.
(** What these do to the column, in exact arithmetic. *)
Local Open Scope R_scope.
Theorem C50_standardised : forall (c : string) (vs : list xr),
  Forall finite_or_missing vs -> present vs <> [] ->
  let ws := exact_result (ScalerOpt false true true) c vs in
  (* missing values stay missing, the others are numbers *)
  (forall i, ws !! i = Some XNaN <-> vs !! i = Some XNaN) /\ Forall finite_or_missing ws /\
  length (present ws) = length (present vs) /\
  r_mean (present ws) = 0 /\
  (~ all_equal (present vs) -> r_var (present ws) = 1) /\
  (all_equal (present vs) -> Forall (fun x => x = 0) (present ws)).
Proof. exact C50_standardised_main. Qed.
Print Assumptions C50_standardised.
Theorem C50_centered : forall (c : string) (vs : list xr),
  Forall finite_or_missing vs -> present vs <> [] ->
  let ws := exact_result (ScalerOpt false true false) c vs in
  (forall i, ws !! i = Some XNaN <-> vs !! i = Some XNaN) /\
  r_mean (present ws) = 0 /\ r_var (present ws) = r_var (present vs).
Proof. exact C50_centered_main. Qed.
Print Assumptions C50_centered.
Theorem C50_scaled : forall (c : string) (vs : list xr),
  Forall finite_or_missing vs -> present vs <> [] ->
  let ws := exact_result (ScalerOpt false false true) c vs in
  (forall i, ws !! i = Some XNaN <-> vs !! i = Some XNaN) /\
  (~ all_equal (present vs) -> r_var (present ws) = 1 /\ r_mean (present ws) = r_mean (present vs) * R_sqrt.sqrt (/ r_var (present vs))).
Proof. exact C50_scaled_main. Qed.
Print Assumptions C50_scaled.
Local Close Scope R_scope.
Example C50_case :
  fit_trans (ScalerOpt false true true) [fz 1; S754_nan; fz 3; fz 1; fz 3] =
  Some (VFloat <$> [fz (-1); S754_nan; fz 1; fz (-1); fz 1]).
Proof. exact C50_check_main. Qed.
Example C50_case_exact : Forall finite_or_missing [XR 1; XNaN; XR 3] /\ present [XR 1; XNaN; XR 3] <> [] /\
  ~ all_equal (present [XR 1; XNaN; XR 3]).
Proof. exact C50_check2_main. Qed.

(** C51 Min-max scaling multiplies by the range instead of dividing by it: the
    claim holds only for columns with range 1. *)
Local Open Scope R_scope.
Theorem C51_minmax_partial : forall (c : string) (vs : list xr),
  Forall finite_or_missing vs -> present vs <> [] -> exists mn mx,
  mn ∈ present vs /\ mx ∈ present vs /\ Forall (fun x => mn <= x <= mx) (present vs) /\
  let ws := present (exact_result (ScalerOpt true false false) c vs) in
  (* the range obtained is [0, (max-min)^2] ... *)
  Forall (fun x => 0 <= x <= (mx - mn) * (mx - mn)) ws /\ 0 ∈ ws /\ (mx - mn) * (mx - mn) ∈ ws /\
  (* ... which is right in one case only *)
  (unit_range ws <-> mx - mn = 1).
Proof. exact C51_minmax_partial_main. Qed.
Print Assumptions C51_minmax_partial.
Local Close Scope R_scope.
Example C51_case : fit_trans (ScalerOpt true false false) [fz 5; f64_sub (fz 6) f_half; S754_nan; fz 6] =
  Some (VFloat <$> [fz 0; f_half; S754_nan; fz 1]).
Proof. exact C51_check_main. Qed.
Theorem C51_minmax_refuted : exists (vs : list f64), Forall finite vs /\
  fit_trans (ScalerOpt true false false) vs = Some [VFloat (fz 0); VFloat (fz 4)].
Proof. exact C51_minmax_refuted_main. Qed.
Print Assumptions C51_minmax_refuted.

(** C52 The inverse: the same columns, and in exact arithmetic the inverse
    function if the scale is not zero. *)
Local Open Scope R_scope.
Theorem C52_inverse : forall (sc : scaler real_arith) (c : string) (v : xr) (s k : R),
  (v = XNaN \/ exists r, v = XR r) ->
  default (XR 0) (sc_shift sc !! c) = XR s -> default (XR 1) (sc_scale sc !! c) = XR k -> k <> 0 ->
  scale_value (inverse_scaler sc) c (scale_value sc c v) = v.
Proof. exact C52_inverse_main. Qed.
Print Assumptions C52_inverse.
Local Close Scope R_scope.
Theorem C52_same_columns : forall (A : arith) (sc : scaler A), spec_cols (inverse_scaler sc) = spec_cols sc.
Proof. exact C52_same_columns_main. Qed.
Print Assumptions C52_same_columns.
Theorem C52_on_dataframes : forall (order : gset string -> list string) (sc : scaler f64_arith) (h : heap) (d : dframe),
  wf h d -> (forall X, order X ≡ₚ elements X) ->
  (forall c, c ∈ spec_cols sc -> is_Some (t_cols (abs h d) !! (KFloat, c))) ->
  NoDup (inds d) -> own_cells h d (spec_cols sc) ->
  exists h1 h2, scaler_transform order sc d h = Ok (tt, h1) /\ scaler_inverse order sc d h1 = Ok (tt, h2) /\ wf h2 d /\
    abs h2 d = t_update (spec_cols sc) (fun c v => spec_scaled (inverse_scaler sc) c (spec_scaled sc c v)) (abs h d).
Proof. exact C52_on_dataframes_main. Qed.
Print Assumptions C52_on_dataframes.
Example C52_case : fit_trans_back (ScalerOpt true false false) [fz 5; fz 7; S754_nan] = Some (VFloat <$> [fz 5; fz 7; S754_nan]).
Proof. exact C52_check_main. Qed.
(** Fit gives scale zero for a constant column; float64 rounds. *)
Theorem C52_constant_refuted : exists (vs : list f64), Forall finite vs /\
  fit_trans_back (ScalerOpt true false false) vs = Some [VFloat S754_nan; VFloat S754_nan] /\ vs = [fz 5; fz 5].
Proof. exact C52_constant_refuted_main. Qed.
Print Assumptions C52_constant_refuted.
Theorem C52_rounding_refuted : exists (vs : list f64), Forall finite vs /\
  fit_trans_back (ScalerOpt false true true) vs <> Some (VFloat <$> vs) /\ is_Some (fit_trans_back (ScalerOpt false true true) vs).
Proof. exact C52_rounding_refuted_main. Qed.
Print Assumptions C52_rounding_refuted.

(** C53 TransformInplace. *)
Theorem C53_transform_inplace : forall (order : gset string -> list string) (sc : scaler f64_arith) (h : heap) (d : dframe),
  wf h d -> (forall X, order X ≡ₚ elements X) ->
  match scaler_transform order sc d h with
  | Ok (_, h') => (forall c, c ∈ spec_cols sc -> is_Some (t_cols (abs h d) !! (KFloat, c))) /\
      (* every dataframe sees in each of its cells what was there, transformed once for each time
         that one of the columns of d shows the cell *)
      forall d2, wf h d2 -> wf h' d2 /\ same_shape (abs h d2) (abs h' d2) /\
        forall k j, t_cell (abs h' d2) k j = match cell_of h d2 k j, t_cell (abs h d2) k j with
          | Some a, Some v => Some (foldl (fun v c => Nat.iter (hits h d (KFloat, c) a)
                                                     (fun v => VFloat (spec_scaled sc c (the_float v))) v) v (order (spec_cols sc)))
          | _, _ => None
          end
  | Panic => exists c, c ∈ spec_cols sc /\ t_cols (abs h d) !! (KFloat, c) = None
  end.
Proof. exact C53_transform_inplace_main. Qed.
Print Assumptions C53_transform_inplace.
Theorem C53_each_value_once : forall (order : gset string -> list string) (sc : scaler f64_arith) (h : heap) (d : dframe),
  wf h d -> (forall X, order X ≡ₚ elements X) ->
  (forall c, c ∈ spec_cols sc -> is_Some (t_cols (abs h d) !! (KFloat, c))) ->
  (* no row is repeated and the columns share no cell with other columns *)
  NoDup (inds d) -> own_cells h d (spec_cols sc) ->
  exists h', scaler_transform order sc d h = Ok (tt, h') /\ wf h' d /\
    abs h' d = t_update (spec_cols sc) (spec_scaled sc) (abs h d) /\
    (forall d2, wf h d2 -> wf h' d2 /\ same_shape (abs h d2) (abs h' d2) /\
       forall k j, (forall c i a, c ∈ spec_cols sc -> cell_of h d2 k j = Some a -> cell_of h d (KFloat, c) i <> Some a) ->
         t_cell (abs h' d2) k j = t_cell (abs h d2) k j).
Proof. exact C53_each_value_once_main. Qed.
Print Assumptions C53_each_value_once.
Theorem C53_all_schedules : forall (order : gset string -> list string) (sc : scaler f64_arith) (h : heap) (d : dframe),
  wf h d -> (forall X, order X ≡ₚ elements X) ->
  (forall c, c ∈ spec_cols sc -> is_Some (t_cols (abs h d) !! (KFloat, c))) ->
  own_cells h d (spec_cols sc) -> "" ∉ spec_cols sc -> (1 <= actual_max_cpu (d_raw d))%Z ->
  let keys := order (spec_cols sc) in
  let prog := scale_job sc (mp h (r_maps (d_raw d))) d in
  exists h', scaler_transform order sc d h = Ok (tt, h') /\
    forall rnd q w m s, create_queue rnd keys (actual_max_cpu (d_raw d)) = (q, w) ->
      steps true (length keys) prog m (pool_init q w h) s ->
      m <= (2 * num_rows d + 4) * length keys + Z.to_nat w + 1 /\ p_crash s = false /\
      (closed (length keys) s -> p_heap s = h') /\
      (~ closed (length keys) s -> exists s', step true (length keys) prog s s').
Proof. exact C53_all_schedules_main. Qed.
Print Assumptions C53_all_schedules.
Example C53_case : wf ex_h ex_d /\ NoDup (inds ex_d) /\
  (forall c, c ∈ spec_cols c53_sc -> is_Some (t_cols (abs ex_h ex_d) !! (KFloat, c))) /\
  t_floats (abs (run_unit2 (scaler_transform elts c53_sc ex_d) ex_h) ex_d) "b" = [fz 3; fz 2; fz 4; fz 4].
Proof. exact C53_check_main. Qed.
Theorem C53_repeated_refuted : exists (h : heap) (d : dframe) (h' : heap),
  wf h d /\ own_cells h d (spec_cols c53_sc) /\
  scaler_transform elts c53_sc d h = Ok (tt, h') /\
  t_floats (abs h d) "b" = [fz 1; f_half; fz 1] /\
  t_floats (abs h' d) "b" = [fz 10; fz 3; fz 10] /\
  spec_scaled c53_sc "b" (fz 1) = fz 4.
Proof. exact C53_repeated_refuted_main. Qed.
Print Assumptions C53_repeated_refuted.

(** C54 FloatImputer. *)
Theorem C54_fit : forall (order : gset string -> list string) (pol : impute_policy) (h : heap) (d : dframe),
  wf h d -> (forall X, order X ≡ₚ elements X) ->
  exists fb, imputer_fit order pol d h = Ok (fb, h) /\ fallback_ok pol (abs h d) fb /\
    let keys := order (names_of KFloat (mp h (r_maps (d_raw d)))) in
    let prog := fit_job (mean_of f64_arith) (mp h (r_maps (d_raw d))) d in
    (pol = IMean -> "" ∉ keys -> (1 <= actual_max_cpu (d_raw d))%Z ->
     forall rnd q w m s, create_queue rnd keys (actual_max_cpu (d_raw d)) = (q, w) ->
      steps true (length keys) prog m (pool_init q w h) s ->
      m <= (num_rows d + 4) * length keys + Z.to_nat w + 1 /\ p_crash s = false /\
      (closed (length keys) s -> p_heap s = h /\ (list_to_map (p_got s) : gmap string f64) = fb) /\
      (~ closed (length keys) s -> exists s', step true (length keys) prog s s')).
Proof. exact C54_fit_main. Qed.
Print Assumptions C54_fit.
Theorem C54_transform : forall (order : gset string -> list string) (fb : gmap string f64) (h : heap) (d : dframe),
  wf h d -> (forall X, order X ≡ₚ elements X) -> own_cells h d (dom fb) ->
  match imputer_transform order fb d h with
  | Ok (_, h') => (forall c, c ∈ dom fb -> is_Some (t_cols (abs h d) !! (KFloat, c))) /\
      wf h' d /\ abs h' d = t_update (dom fb) (spec_impute fb) (abs h d) /\
      (forall d2, wf h d2 -> wf h' d2 /\ same_shape (abs h d2) (abs h' d2) /\
        forall k j, (forall c i a, c ∈ dom fb -> cell_of h d2 k j = Some a -> cell_of h d (KFloat, c) i <> Some a) \/
                    t_cell (abs h d2) k j <> Some (VFloat S754_nan) ->
          t_cell (abs h' d2) k j = t_cell (abs h d2) k j)
  | Panic => exists c, c ∈ dom fb /\ t_cols (abs h d) !! (KFloat, c) = None
  end.
Proof. exact C54_transform_main. Qed.
Print Assumptions C54_transform.
Theorem C54_no_nan_partial : forall (pol : impute_policy) (t t' : table) (fb : gmap string f64) (c : string),
  fallback_ok pol t fb -> (Z.of_nat (length (t_floats t c)) <= 2 ^ 53)%Z ->
  (* the column to be imputed may be another one than the training column *)
  is_Some (t_cols t !! (KFloat, c)) ->
  (pol = IMean -> Forall (fun v => v = S754_nan \/ finite v) (t_floats t c) /\ exists v, v ∈ t_floats t c /\ v <> S754_nan) ->
  S754_nan ∉ t_floats (t_update (dom fb) (spec_impute fb) t') c.
Proof. exact C54_no_nan_partial_main. Qed.
Print Assumptions C54_no_nan_partial.
Local Open Scope R_scope.
Theorem C54_mean_exact : forall (vs : list xr), Forall finite_or_missing vs -> present vs <> [] ->
  mean_of real_arith vs = XR (r_mean (present vs)).
Proof. exact C54_mean_exact_main. Qed.
Print Assumptions C54_mean_exact.
Local Close Scope R_scope.
Example C54_case : fit_impute IMean [fz 2; S754_nan; fz 4] = Some (VFloat <$> [fz 2; fz 3; fz 4]) /\
  fit_impute IOne [fz 2; S754_nan; fz 4] = Some (VFloat <$> [fz 2; fz 1; fz 4]).
Proof. exact C54_check_main. Qed.
Theorem C54_all_missing_refuted : exists (vs vs2 : list f64),
  fit_impute IMean vs = Some [VFloat S754_nan; VFloat S754_nan] /\ vs = [S754_nan; S754_nan] /\
  fit_impute IMean vs2 = Some [VFloat (S754_infinity false); VFloat (S754_infinity true); VFloat S754_nan].
Proof. exact C54_all_missing_refuted_main. Qed.
Print Assumptions C54_all_missing_refuted.

(** C61 MSE and MAE. *)
Theorem C61_on_dataframes : forall (h : heap) (d1 : dframe) (c1 : string) (d2 : dframe) (c2 : string), wf h d1 -> wf h d2 ->
  is_Some (t_cols (abs h d1) !! (KFloat, c1)) -> is_Some (t_cols (abs h d2) !! (KFloat, c2)) ->
  mse d1 c1 d2 c2 h = (if decide (t_rows (abs h d1) = t_rows (abs h d2))
                       then Ok (mse_of f64_arith (t_floats (abs h d1) c1) (t_floats (abs h d2) c2), h) else Panic) /\
  mae d1 c1 d2 c2 h = (if decide (t_rows (abs h d1) = t_rows (abs h d2))
                       then Ok (mae_of f64_arith (t_floats (abs h d1) c1) (t_floats (abs h d2) c2), h) else Panic).
Proof. exact C61_on_dataframes_main. Qed.
Print Assumptions C61_on_dataframes.
Local Open Scope R_scope.
Theorem C61_documented_means : forall (xs ys : list R), length xs = length ys -> xs <> [] ->
  mse_of real_arith (XR <$> xs) (XR <$> ys) = XR (r_mean (sq_errors xs ys)) /\
  mae_of real_arith (XR <$> xs) (XR <$> ys) = XR (r_mean (abs_errors xs ys)) /\
  0 <= r_mean (sq_errors xs ys) /\ 0 <= r_mean (abs_errors xs ys) /\
  (r_mean (sq_errors xs ys) = 0 <-> xs = ys) /\ (r_mean (abs_errors xs ys) = 0 <-> xs = ys) /\
  r_mean (sq_errors xs ys) = r_mean (sq_errors ys xs) /\ r_mean (abs_errors xs ys) = r_mean (abs_errors ys xs).
Proof. exact C61_documented_means_main. Qed.
Print Assumptions C61_documented_means.
Local Close Scope R_scope.
Theorem C61_float64 : forall (xs ys : list f64), length xs = length ys ->
  mse_of f64_arith xs ys = mse_of f64_arith ys xs /\ mae_of f64_arith xs ys = mae_of f64_arith ys xs /\
  f64_lt (mse_of f64_arith xs ys) f64_zero = false /\ f64_lt (mae_of f64_arith xs ys) f64_zero = false /\
  (xs = [] -> mse_of f64_arith xs ys = S754_nan /\ mae_of f64_arith xs ys = S754_nan).
Proof. exact C61_float64_main. Qed.
Print Assumptions C61_float64.
Example C61_case : (let '(d, h) := one_col [fz 1; fz 5] in
   match mse d "x" d "x" h, mae d "x" d "x" h with Ok (x, _), Ok (y, _) => (x, y) | _, _ => (S754_nan, S754_nan) end) = (fz 0, fz 0) /\
  mse_of f64_arith [fz 1; fz 5] [fz 2; fz 2] = fz 5 /\ mae_of f64_arith [fz 1; fz 5] [fz 2; fz 2] = fz 2.
Proof. exact C61_check_main. Qed.
Theorem C61_zero_refuted : exists (xs ys : list f64), Forall finite xs /\ Forall finite ys /\ length xs = length ys /\ xs <> ys /\
  mse_of f64_arith xs ys = f64_zero.
Proof. exact C61_zero_refuted_main. Qed.
Print Assumptions C61_zero_refuted.

(** C72 A constant column becomes zero: true in exact arithmetic, false with
    float64. *)
Local Open Scope R_scope.
Theorem C72_constant_partial : forall (c : string) (vs : list xr) (r : R),
  Forall (fun v => v = XR r \/ v = XNaN) vs ->
  exact_result (ScalerOpt false true true) c vs = zeroed <$> vs.
Proof. exact C72_constant_partial_main. Qed.
Print Assumptions C72_constant_partial.
Local Close Scope R_scope.
Example C72_case : mean_of f64_arith [f_tenth; f_tenth; S754_nan] = f_tenth /\
  fit_trans (ScalerOpt false true true) [f_tenth; f_tenth; S754_nan] = Some (VFloat <$> [fz 0; fz 0; S754_nan]).
Proof. exact C72_check_main. Qed.
Theorem C72_constant_refuted : exists (vs : list f64), vs = [f_tenth; f_tenth; f_tenth] /\
  fit_trans (ScalerOpt false true true) vs = Some (VFloat <$> [fz (-1); fz (-1); fz (-1)]).
Proof. exact C72_constant_refuted_main. Qed.
Print Assumptions C72_constant_refuted.

(** C73 HashEncoder. If all columns are strings the claim is false, see
    C24_all_columns_refuted. *)
Theorem C73_hash_encoder_partial : forall (rt : GoRT), forall (order : gset string -> list string) (h h2 : heap) (train d : dframe),
  wf h train -> wf h2 d -> (forall X, order X ≡ₚ elements X) ->
  (* every string column of the training data is one of the other dataframe, which has another column *)
  (forall c, c ∈ t_strs (abs h train) -> is_Some (t_cols (abs h2 d) !! (KObj, c))) ->
  (exists k, is_Some (t_cols (abs h2 d) !! k) /\ k.2 ∉ t_strs (abs h train)) ->
  exists cols v h', hash_encoder_fit order train h = Ok (cols, h) /\ cols ≡ₚ elements (t_strs (abs h train)) /\
    hash_encoder_transform cols d h2 = Ok (v, h') /\ wf h' v /\ preserved h2 h' /\
    t_rows (abs h' v) = t_rows (abs h2 d) /\
    forall k c, t_cols (abs h' v) !! (k, c) =
      if decide (c ∈ t_strs (abs h train)) then match k with KInt => fmap spec_hash <$> t_cols (abs h2 d) !! (KObj, c) | _ => None end
      else t_cols (abs h2 d) !! (k, c).
Proof. intros rt. exact C73_hash_encoder_partial_main. Qed.
Print Assumptions C73_hash_encoder_partial.
Example C73_case : (let '(v, h) := run_df (let* cols := hash_encoder_fit elts ex_v in hash_encoder_transform cols ex_v) ex_vh in
   show KInt "s" h v = Some (spec_hash <$> [VObj (OStr "yy"); VObj (OStr "x"); VObj (OStr "yy")]) /\
   show KObj "s" h v = None /\ show KInt "a" h v = Some [VInt 9; VInt 5; VInt 9]).
Proof. exact C73_check_main. Qed.
