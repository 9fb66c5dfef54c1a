(** Specification for the preprocessors: columns updated value by value,
    textbook statistics of lists of real numbers. *)
From Coq Require Import Reals.
From Verif Require Export Spec M_Arith.

(** The float64 values of a float column. *)
Definition the_float (v : val) : f64 := match v with VFloat f => f | _ => f64_zero end.
Definition t_floats (t : table) (c : string) : list f64 := the_float <$> default [] (t_cols t !! (KFloat, c)).
Definition on_floats (f : f64 -> f64) (col : list val) : list val := (fun v => VFloat (f (the_float v))) <$> col.
(** Every value of the float columns with a name in [cols] replaced by its image. *)
Definition t_update (cols : gset string) (f : string -> f64 -> f64) (t : table) : table :=
  t_with_cols t (map_imap (fun k col => Some (
    if decide (k.1 = KFloat /\ k.2 ∈ cols) then on_floats (f k.2) col else col)) (t_cols t)).

Local Open Scope R_scope.
Definition r_sum (xs : list R) : R := foldr Rplus 0 xs.
Definition r_mean (xs : list R) : R := r_sum xs / INR (length xs).
Definition r_var (xs : list R) : R := r_mean ((fun x => (x - r_mean xs) * (x - r_mean xs)) <$> xs).
(** The values that are not missing. *)
Definition present (vs : list xr) : list R := omap (fun x => match x with XR r => Some r | _ => None end) vs.
(** A column of real numbers and missing values. *)
Definition finite_or_missing (x : xr) : Prop := match x with XInf _ => False | _ => True end.
