(** AutoPreprocessor: preprocessing/auto_preprocessor.go. *)
From Verif Require Export M_OneHot.

(** AutoPreprocOptions (auto_preprocessor.go:9-18) without Verbose, and
    AutoPreprocessor (auto_preprocessor.go:24-30); [None] for a nil pointer. *)
Record auto_opt := AutoOpt { ao_imputing : bool; ao_scaling : bool; ao_exclude : list string }.
Record auto := Auto {
  ap_hash : option (list string); ap_onehot : option encoder;
  ap_imputer : option (gmap string f64); ap_scaler : option (scaler f64_arith); ap_opt : auto_opt }.
(** NewAutoPreprocessor (auto_preprocessor.go:33-37). *)
Definition new_auto (opt : auto_opt) : auto := Auto None None None None opt.
(** The one-hot options of auto_preprocessor.go:106-109, as NewOneHotEncoder leaves them. *)
Definition auto_oh : oh_opt := oh_fix (OhOpt PIfSeen PShared false).
Definition auto_sc : scaler_opt := ScalerOpt false true true.

(** Calls through a pointer that may be nil. *)
Definition deref {A} (o : option A) : M A := match o with Some x => ret x | None => panic end.

Section auto.
Context {rt : GoRT} (order : gset string -> list string) (ord : string -> bool -> gset Z -> list Z).

(** TransformedColumns (auto_preprocessor.go:40-44). *)
Definition auto_columns (p : auto) : M (list string) :=
  let* f := deref (ap_imputer p) in
  let* cols := deref (ap_hash p) in
  ret (order (dom f) ++ cols).

(** fit (auto_preprocessor.go:67-116), the part before "if !transform":
    floatCols, the new
    state of the preprocessor and the dataframe held by variable df. *)
Definition auto_fit_floats (p : auto) (d : dframe) (cols : list string) : M auto :=
  let opt := ap_opt p in
  if ao_imputing opt || ao_scaling opt then
    let* v := column_view d cols in
    let* im := (if ao_imputing opt then let* f := imputer_fit order IMean v in ret (Some f) else ret (ap_imputer p)) in
    let* sc := (if ao_scaling opt then let* s := scaler_fit order auto_sc v in ret (Some s) else ret (ap_scaler p)) in
    ret (Auto (ap_hash p) (ap_onehot p) im sc opt)
  else ret p.
Definition auto_fit_hash (p : auto) (d : dframe) : M (auto * dframe * list string) :=
  let* m := get_mp (r_maps (d_raw d)) in
  let* strs := get_ostr (r_strs (d_raw d)) in
  if decide (0 < size strs) then
    let* cols := hash_encoder_fit order d in
    let* v := hash_encoder_transform cols d in
    ret (Auto (Some cols) (ap_onehot p) (ap_imputer p) (ap_scaler p) (ap_opt p), v, cols)
  else ret (p, d, order (names_of KInt m)).
Definition auto_fit_onehot (p : auto) (d : dframe) (cats : list string) : M auto :=
  if decide (cats = []) then ret p else
  let* v := column_view d cats in
  let* e := oh_fit order ord auto_oh v in
  ret (Auto (ap_hash p) (Some e) (ap_imputer p) (ap_scaler p) (ap_opt p)).
Definition auto_train (p : auto) (d : dframe) : M (auto * dframe * list string) :=
  let* m := get_mp (r_maps (d_raw d)) in
  let cols := order (names_of KFloat m ∖ list_to_set (ao_exclude (ap_opt p))) in
  let* p := auto_fit_floats p d cols in
  let* x := auto_fit_hash p d in
  let* p := auto_fit_onehot x.1.1 x.1.2 x.2 in
  ret (p, x.1.2, cols).
(** Fit (auto_preprocessor.go:48-51). *)
Definition auto_fit (p : auto) (d : dframe) : M auto :=
  let* x := auto_train p d in ret x.1.1.
(** FitTransform (auto_preprocessor.go:59-65) and the rest of fit (117-140). An error
    from TransformView is a panic here. *)
Definition auto_fit_transform (p : auto) (d : dframe) : M (auto * dframe) :=
  let* x := auto_train p d in
  let p := x.1.1 in
  let rest (d : dframe) : M (auto * dframe) :=
    let* r := unshare (d_raw (view d)) x.2 in
    let v := set_raw (view d) r in
    let* f := deref (ap_imputer p) in
    imputer_transform order f v ;;*
    let* s := deref (ap_scaler p) in
    scaler_transform order s v ;;*
    ret (p, v) in
  match ap_onehot p with
  | Some e =>
      let* w := oh_transform e x.1.2 in
      match w with Some d => rest d | None => panic end
  | None => if negb (ao_imputing (ap_opt p)) && negb (ao_scaling (ap_opt p)) then ret (p, x.1.2) else rest x.1.2
  end.

(** TransformView (auto_preprocessor.go:146-175); [None]: an error is returned. *)
Definition auto_transform_floats (p : auto) (d : dframe) : M dframe :=
  let* d := match ap_imputer p, ap_scaler p with
            | Some f, _ => detached_view d (order (dom f))
            | None, Some s => detached_view d (order (scaled_columns s))
            | None, None => ret d
            end in
  (match ap_imputer p with Some f => imputer_transform order f d | None => ret tt end) ;;*
  (match ap_scaler p with Some s => scaler_transform order s d | None => ret tt end) ;;*
  ret d.
Definition auto_transform (p : auto) (d : dframe) : M (option dframe) :=
  let* d := auto_transform_floats p d in
  let* d := match ap_hash p with Some cols => hash_encoder_transform cols d | None => ret d end in
  match ap_onehot p with Some e => oh_transform e d | None => ret (Some d) end.
End auto.
