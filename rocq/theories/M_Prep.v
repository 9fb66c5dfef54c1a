(** Scaler, FloatImputer, HashEncoder and the evaluation functions:
    preprocessing/scaler.go, float_imputer.go, hash_encoder.go and
    algorithms/evaluation.go. *)
From Verif Require Export M_Pool M_Arith.

(** * Numeric code, over any arithmetic *)
Section arith.
Context (A : arith).

(** ScalerOptions (scaler.go:9-16). *)
Record scaler_opt := ScalerOpt { so_minmax : bool; so_centering : bool; so_scaling : bool }.

(** The loop of lines 48-56. *)
Definition min_max (vs : list (num A)) : num A * num A :=
  foldl (fun p v => (if a_lt A v p.1 then v else p.1, if a_lt A p.2 v then v else p.2)) (a_inf A false, a_inf A true) vs.
(** The loops of scaler.go:63-71 and float_imputer.go:54-62: sum and number of
    the values that are not NaN. *)
Definition sum_n (vs : list (num A)) : num A * Z :=
  foldl (fun p v => if a_isnan A v then p else (a_add A p.1 v, (p.2 + 1)%Z)) (a_of A 0, 0%Z) vs.
Definition mean_of (vs : list (num A)) : num A :=
  let '(sum, n) := sum_n vs in a_div A sum (a_of A n).
(** Lines 78-84. *)
Definition square_sum (mean : num A) (vs : list (num A)) : num A :=
  foldl (fun s v => if a_isnan A v then s
                    else a_add A s (a_mul A (a_sub A v mean) (a_sub A v mean))) (a_of A 0) vs.
(** Lines 85-89. *)
Definition scale_of (squaresum : num A) (n : Z) : num A :=
  if a_eq A squaresum (a_of A 0)
  then a_sqrt A (a_div A (a_of A (n + 1)) (a_add A squaresum (a_of A 1)))
  else a_sqrt A (a_div A (a_of A n) squaresum).
(** The loop body of workerFits (scaler.go:39-94): shift and scale, [None] for
    nil. *)
Definition fit_col (opt : scaler_opt) (vs : list (num A)) : option (num A) * option (num A) :=
  if so_minmax opt then
    let '(mn, mx) := min_max vs in (Some (a_opp A mn), Some (a_sub A mx mn))
  else if so_scaling opt || so_centering opt then
    let mean := mean_of vs in
    (if so_centering opt then Some (a_opp A mean) else None,
     if so_scaling opt then Some (scale_of (square_sum mean vs) (sum_n vs).2) else None)
  else (None, None).

(** Scaler (scaler.go:21-25). *)
Record scaler := Scaler { sc_shift : gmap string (num A); sc_scale : gmap string (num A) }.
(** workerTransforms (scaler.go:120-127): what happens to one value. *)
Definition shift_of (sc : scaler) (c : string) : num A := default (a_of A 0) (sc_shift sc !! c).
Definition factor_of (sc : scaler) (c : string) : num A := default (a_of A 1) (sc_scale sc !! c).
Definition scale_value (sc : scaler) (c : string) (v : num A) : num A :=
  a_mul A (a_add A v (shift_of sc c)) (factor_of sc c).
(** TransformedColumns (scaler.go:171-177), as a set. *)
Definition scaled_columns (sc : scaler) : gset string :=
  if decide (0 < size (sc_shift sc)) then dom (sc_shift sc) else dom (sc_scale sc).
(** InverseTransformInplace (scaler.go:154-166). *)
Definition inverse_scaler (sc : scaler) : scaler :=
  Scaler (map_imap (fun c shift => Some (match sc_scale sc !! c with
                                         | Some scale => a_mul A (a_opp A shift) scale
                                         | None => a_opp A shift
                                         end)) (sc_shift sc))
         ((fun scale => a_div A (a_of A 1) scale) <$> sc_scale sc).
(** Fit (scaler.go:103-113): the maps made from the results of the workers, in
    the order in which they arrive. *)
Definition collect_fit (results : list (string * (option (num A) * option (num A)))) : scaler :=
  foldl (fun sc p => Scaler (match p.2.1 with Some x => <[p.1 := x]> (sc_shift sc) | None => sc_shift sc end)
                            (match p.2.2 with Some x => <[p.1 := x]> (sc_scale sc) | None => sc_scale sc end))
        (Scaler ∅ ∅) results.

(** MSE and MAE (algorithms/evaluation.go:11-34) on the values of the two
    columns. *)
Definition mse_of (xs ys : list (num A)) : num A :=
  a_div A (foldl (fun r p => a_add A r (a_mul A (a_sub A p.1 p.2) (a_sub A p.1 p.2))) (a_of A 0) (zip xs ys))
          (a_of A (Z.of_nat (length xs))).
Definition mae_of (xs ys : list (num A)) : num A :=
  a_div A (foldl (fun r p => a_add A r (a_abs A (a_sub A p.1 p.2))) (a_of A 0) (zip xs ys))
          (a_of A (Z.of_nat (length xs))).
End arith.
Arguments Scaler {A} sc_shift sc_scale.
Arguments sc_shift {A} s.
Arguments sc_scale {A} s.
Arguments shift_of {A} sc c.
Arguments factor_of {A} sc c.
Arguments scale_value {A} sc c v.
Arguments scaled_columns {A} sc.
Arguments inverse_scaler {A} sc.

(** * On dataframes. [order]: the order in which Go iterates over a map or a
    header. *)
(** A cell of a []float64. *)
Definition float_of (v : val) : f64 := match v with VFloat f => f | _ => f64_zero end.
Section prep.
Context {rt : GoRT}.

(** for i := 0; i < access.Size(); i++ { access.Set(i, f(access.Get(i))) } *)
Definition update_column (f : f64 -> f64) (d : dframe) (c : string) : M unit :=
  let* s := access KFloat d c in
  forM (inds d) (fun i => let* v := sl_rd s i in sl_wr s i (VFloat (f (float_of v)))).

(** The values workerFits sees (scaler.go:41, float_imputer.go:53). *)
Definition read_floats (d : dframe) (c : string) : M (list f64) :=
  let* s := access KFloat d c in
  let* vs := gather s (inds d) in
  ret (float_of <$> vs).
Fixpoint read_all {B} (f : list f64 -> B) (d : dframe) (cols : list string) : M (list (string * B)) :=
  match cols with
  | [] => ret []
  | c :: cols => let* vs := read_floats d c in let* l := read_all f d cols in ret ((c, f vs) :: l)
  end.

(** Scaler.Fit (scaler.go:97-115), the columns being processed in turn; for
    arbitrary schedules see fit_job below. *)
Definition scaler_fit (order : gset string -> list string) (opt : scaler_opt) (d : dframe) : M (scaler f64_arith) :=
  let* m := get_mp (r_maps (d_raw d)) in
  let* results := read_all (fit_col f64_arith opt) d (order (names_of KFloat m)) in
  ret (collect_fit f64_arith results).
(** Scaler.TransformInplace (scaler.go:116-150), the columns in turn. *)
Definition scaler_transform (order : gset string -> list string) (sc : scaler f64_arith) (d : dframe) : M unit :=
  let m := if decide (size (sc_shift sc) < size (sc_scale sc)) then sc_scale sc else sc_shift sc in
  if decide (size m = 0) then ret tt else
  forM (order (scaled_columns sc)) (fun c => update_column (scale_value sc c) d c).
(** Scaler.InverseTransformInplace (scaler.go:153-168). *)
Definition scaler_inverse (order : gset string -> list string) (sc : scaler f64_arith) (d : dframe) : M unit :=
  scaler_transform order (inverse_scaler sc) d.

(** FloatImputer (float_imputer.go:9-25): its policy and the map Fallback. *)
Inductive impute_policy := IMean | IZero | IOne.
Definition impute_value (fallback v : f64) : f64 := if f64_isnan v then fallback else v.
(** FloatImputer.Fit (float_imputer.go:51-91). *)
Definition imputer_fit (order : gset string -> list string) (pol : impute_policy) (d : dframe) : M (gmap string f64) :=
  let* m := get_mp (r_maps (d_raw d)) in
  let cols := order (names_of KFloat m) in
  match pol with
  | IZero => ret (list_to_map ((fun c => (c, f64_zero)) <$> cols))
  | IOne => ret (list_to_map ((fun c => (c, f64_one)) <$> cols))
  | IMean => let* results := read_all (mean_of f64_arith) d cols in ret (list_to_map results)
  end.
(** FloatImputer.TransformInplace (float_imputer.go:94-105). *)
Definition imputer_transform (order : gset string -> list string) (fallback : gmap string f64) (d : dframe) : M unit :=
  forM (order (dom fallback))
    (fun c => update_column (impute_value (default f64_zero (fallback !! c))) d c).

(** HashEncoder.Fit and TransformView (hash_encoder.go:29-38). *)
Definition hash_encoder_fit (order : gset string -> list string) (d : dframe) : M (list string) :=
  let* xs := get_ostr (r_strs (d_raw d)) in ret (order xs).
Definition hash_encoder_transform (columns : list string) (d : dframe) : M dframe :=
  hash_strings_view d columns.

(** MSE and MAE on df1.Floats(c1) and df2.Floats(c2) (evaluation.go:11-34). *)
Definition evaluate (f : list f64 -> list f64 -> f64) (d1 : dframe) (c1 : string) (d2 : dframe) (c2 : string) : M f64 :=
  let* s1 := access KFloat d1 c1 in
  let* s2 := access KFloat d2 c2 in
  if decide (num_rows d1 = num_rows d2) then
    let* xs := gather s1 (inds d1) in
    let* ys := gather s2 (inds d2) in
    ret (f (float_of <$> xs) (float_of <$> ys))
  else panic.
Definition mse := evaluate (mse_of f64_arith).
Definition mae := evaluate (mae_of f64_arith).
End prep.

(** * The workers *)
(** Reading a column, cell by cell. The two passes of workerFits over the
    same cells, which nobody writes, are one here. *)
Fixpoint read_job {R} (s : slice) (ix : list nat) (acc : list val) (k : list val -> job R) : job R :=
  match ix with
  | [] => k (reverse acc)
  | i :: ix => if decide (i < s_len s) then JRd (s_arr s, s_off s + i) (fun v => read_job s ix (v :: acc) k) else JPanic
  end.
(** workerFits of the scaler and of the imputer for column [c], [m] being the
    maps of the dataframe, which no worker changes. *)
Definition fit_job {B} (f : list f64 -> B) (m : gmap key slice) (d : dframe) (c : string) : job B :=
  match m !! (KFloat, c) with
  | Some s => read_job s (inds d) [] (fun vs => JRet (f (float_of <$> vs)))
  | None => JPanic
  end.
(** workerTransforms of the scaler for column [c]. *)
Definition scale_job (sc : scaler f64_arith) (m : gmap key slice) (d : dframe) (c : string) : job unit :=
  match m !! (KFloat, c) with
  | Some s => map_job (fun v => VFloat (scale_value sc c (float_of v))) s s (inds d)
  | None => JPanic
  end.
