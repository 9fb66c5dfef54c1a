(** Specification: rows and matrices of numbers taken from a table. *)
From Verif Require Export Spec.

(** Go's float32(float64) and float32(int): round to nearest even. *)
Definition f32_of_f64 (x : f64) : f64 :=
  match x with
  | S754_finite s m e => binary_normalize 24 128 (cond_Zopp s (Z.pos m)) e s
  | _ => x
  end.
Definition f32_of_Z (z : Z) : f64 := binary_normalize 24 128 z 0 false.
(** A cell as a float32 and as a float64. *)
Definition f32_of_val (v : val) : f64 :=
  match v with
  | VBool true => f64_one
  | VInt z => f32_of_Z z
  | VFloat x => f32_of_f64 x
  | _ => f64_zero
  end.
Definition f64_of_val (v : val) : f64 :=
  match v with
  | VBool true => f64_one
  | VInt z => f64_of_Z z
  | VFloat x => x
  | _ => f64_zero
  end.

(** The numeric column of the given name (a name should not be used for two
    types; if it is, floats come first, then bools). *)
Definition num_key (t : table) (c : string) : option key :=
  if decide (is_Some (t_cols t !! (KFloat, c))) then Some (KFloat, c)
  else if decide (is_Some (t_cols t !! (KBool, c))) then Some (KBool, c)
  else if decide (is_Some (t_cols t !! (KInt, c))) then Some (KInt, c) else None.
Definition num_keys (t : table) (cols : list string) : option (list key) := mapM (num_key t) cols.

(** Row [j] of the given columns, in the given order. *)
Definition t_num_row (f : val -> f64) (t : table) (ks : list key) (j : nat) : list f64 :=
  (fun k => f (default (VInt 0) (default [] (t_cols t !! k) !! j))) <$> ks.
(** All rows. *)
Definition t_num_rows (f : val -> f64) (t : table) (ks : list key) : list (list f64) :=
  t_num_row f t ks <$> seq 0 (t_rows t).
