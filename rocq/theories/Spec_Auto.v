(** What AutoPreprocessor should do, independently of the code. *)
From Verif Require Export M_Auto Spec_OneHot Spec_Prep Spec_Read.

(** No name is used for columns of two types. *)
Definition unique_names (t : table) : Prop :=
  forall k1 k2 c, is_Some (t_cols t !! (k1, c)) -> is_Some (t_cols t !! (k2, c)) -> k1 = k2.
(** The names marked as strings are names of string columns, and they are not
    the only columns. *)
Definition strings_ok (t : table) : Prop :=
  (forall c, c ∈ t_strs t -> is_Some (t_cols t !! (KObj, c))) /\
  (t_strs t = ∅ \/ exists k, is_Some (t_cols t !! k) /\ k.2 ∉ t_strs t).
(** The categorical columns: the strings, or the ints if there are no strings. *)
Definition categorical (t : table) (c : string) : Prop :=
  if decide (t_strs t = ∅) then is_Some (t_cols t !! (KInt, c)) else c ∈ t_strs t.
(** No name of a categorical column looks like one generated for another. *)
Definition no_clash (t : table) : Prop :=
  forall c c' i, categorical t c -> categorical t c' -> c' <> onehot_name c i /\ c' <> missing_name c.

(** In row [j] of the float columns [cols] every value is replaced [n j] times
    by its image. *)
Definition repeat_floats (n : nat -> nat) (f : f64 -> f64) (col : list val) : list val :=
  imap (fun j v => VFloat (Nat.iter (n j) f (the_float v))) col.
Definition t_update_n (n : nat -> nat) (cols : gset string) (f : string -> f64 -> f64) (t : table) : table :=
  t_with_cols t (map_imap (fun k col => Some (
    if decide (k.1 = KFloat /\ k.2 ∈ cols) then repeat_floats n (f k.2) col else col)) (t_cols t)).

(** The float columns that are imputed and scaled. If all of them are
    excluded, all of them are used. *)
Definition float_used (opt : auto_opt) (t : table) (c : string) : Prop :=
  is_Some (t_cols t !! (KFloat, c)) /\
  (c ∉ ao_exclude opt \/ forall c', is_Some (t_cols t !! (KFloat, c')) -> c' ∈ ao_exclude opt).
(** The categories of a categorical column. *)
Definition codes (t : table) (c : string) : list Z :=
  if decide (t_strs t = ∅) then t_ints t c else the_int <$> (spec_hash <$> default [] (t_cols t !! (KObj, c))).

(** A preprocessor trained on [t]. *)
Record auto_fitted (opt : auto_opt) (t : table) (p : auto) : Prop := {
  af_opt : ap_opt p = opt;
  af_imputer : match ap_imputer p with
    | Some f => ao_imputing opt = true /\
        forall c, (c ∈ dom f <-> float_used opt t c) /\
                  (float_used opt t c -> f !! c = Some (mean_of f64_arith (t_floats t c) : f64))
    | None => ao_imputing opt = false
    end;
  af_scaler : match ap_scaler p with
    | Some s => ao_scaling opt = true /\
        forall c, (c ∈ dom (sc_shift s) <-> float_used opt t c) /\ (c ∈ dom (sc_scale s) <-> float_used opt t c) /\
                  (float_used opt t c -> sc_shift s !! c = (fit_col f64_arith auto_sc (t_floats t c)).1 /\
                                         sc_scale s !! c = (fit_col f64_arith auto_sc (t_floats t c)).2)
    | None => ao_scaling opt = false
    end;
  af_hash : match ap_hash p with
    | Some cols => t_strs t <> ∅ /\ cols ≡ₚ elements (t_strs t)
    | None => t_strs t = ∅
    end;
  af_onehot : match ap_onehot p with
    | Some e => (exists c, categorical t c) /\ exists t1, fitted auto_oh t1 e /\
        forall c, (is_Some (t_cols t1 !! (KInt, c)) <-> categorical t c) /\ (categorical t c -> t_ints t1 c = codes t c)
    | None => forall c, ~ categorical t c
    end }.

(** What TransformView makes of a table, [n j] being how often row [j] of the
    dataframe is shown. *)
Definition impute_with (f : gmap string f64) (c : string) (v : f64) : f64 :=
  if decide (v = S754_nan) then default f64_zero (f !! c) else v.
Definition scale_with (s : scaler f64_arith) (c : string) (v : f64) : f64 :=
  f64_mul (f64_add v (default f64_zero (sc_shift s !! c))) (default f64_one (sc_scale s !! c)).
Definition scale_names (s : scaler f64_arith) : gset string := dom (sc_shift s) ∪ dom (sc_scale s).
Definition prep_floats (n : nat -> nat) (p : auto) (t : table) : table :=
  let t := match ap_imputer p with Some f => t_update (dom f) (impute_with f) t | None => t end in
  match ap_scaler p with Some s => t_update_n n (scale_names s) (scale_with s) t | None => t end.
Definition prep_strings (p : auto) (t : table) : table :=
  match ap_hash p with Some cols => t_hash cols t | None => t end.
Definition prepared_as (n : nat -> nat) (p : auto) (t t' : table) : Prop :=
  match ap_onehot p with
  | Some e => encoded e (prep_strings p (prep_floats n p t)) t'
  | None => t' = prep_strings p (prep_floats n p t)
  end.
(** The columns a preprocessor needs, and another column than strings. *)
Definition has_inputs (p : auto) (t : table) : Prop :=
  (forall f c, ap_imputer p = Some f -> c ∈ dom f -> is_Some (t_cols t !! (KFloat, c))) /\
  (forall s c, ap_scaler p = Some s -> c ∈ scale_names s -> is_Some (t_cols t !! (KFloat, c))) /\
  (forall cols c, ap_hash p = Some cols -> c ∈ cols -> is_Some (t_cols t !! (KObj, c))) /\
  (forall cols, ap_hash p = Some cols -> exists k, is_Some (t_cols t !! k) /\ k.2 ∉ cols) /\
  (forall e c, ap_hash p = None -> ap_onehot p = Some e -> c ∈ en_cats e -> is_Some (t_cols t !! (KInt, c))).
