(** What it means to print a float64 with a given number of decimals. *)
From Coq Require Import Reals Strings.Ascii.
From Flocq Require Import Core BinarySingleNaN.
From Verif Require Import M_Base.
From Verif Require Import Spec_Json Spec_Strconv.
From stdpp Require Import strings list.

(** [r] rounded to [p] decimals, ties to even. *)
Definition to_decimals (p : Z) (r : R) : R := (IZR (ZnearestE (r * powerRZ 10 p)) * powerRZ 10 (- p))%R.
(** The text [s] is [x] rounded to [p] decimals: the sign of [x], then digits
    without superfluous zeros in front, then [p] digits after the point. *)
Definition shows (p : Z) (x : spec_float) (s : string) : Prop :=
  match x with
  | S754_nan => s = "NaN"
  | S754_infinity b => s = if b then "-Inf" else "+Inf"
  | _ => exists d, s = decimal_text d /\ decimal_ok d /\ plain_int (de_int d) /\ de_exp d = None /\
           de_sign d = (if negative x then "-" else "") /\
           match de_frac d with None => p = 0%Z | Some f => (0 < p)%Z /\ Z.of_nat (String.length f) = p end /\
           decimal_value d = to_decimals p (real_of x)
  end.
(** The formats of PrintHead and PrintRecords that ask for [p] decimals. *)
Definition asks (fmt : string) (p : Z) : Prop :=
  fmt = "" /\ p = 3%Z \/ fmt = "%f" /\ p = 6%Z \/
  exists ds, fmt = "%." +:+ ds +:+ "f" /\ digits ds /\ value ds = p /\ (p <= 1000000)%Z.
