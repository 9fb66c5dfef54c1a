(** Floats as package fmt of Go 1.15 prints them with %.Nf and %f: the format
    of PrintHead and PrintRecords (dataframe/print.go:70-74 and 136-140) and of
    examples/linreg.go:119 and algorithms/linear_regression.go:131. The other
    formats, and what fmt does with addresses and names, are those of [base]. *)
From stdpp Require Import pretty.
From Verif Require Export M_Strconv M_Print.

(** The integer nearest to a / b, ties to even: decimal.Round (strconv,
    decimal.go) rounds the exact decimal expansion. *)
Definition round_div (a b : Z) : Z :=
  let q := (a / b)%Z in
  match (2 * (a mod b) ?= b)%Z with
  | Lt => q
  | Gt => (q + 1)%Z
  | Eq => if Z.even q then q else (q + 1)%Z
  end.
(** m * 2^e in units of 10^-p *)
Definition fixed_units (p : Z) (m : positive) (e : Z) : Z :=
  match e with
  | Zneg k => round_div (Zpos m * 10 ^ p) (2 ^ Zpos k)
  | _ => Zpos m * 2 ^ e * 10 ^ p
  end%Z.
(** fmtFloat (fmt, format.go), AppendFloat(x, 'f', p, 64) and fmtF (strconv,
    ftoa.go). *)
Definition fmt_prec (p : Z) (x : f64) : string :=
  match x with
  | S754_nan => "NaN"
  | S754_infinity s => if s then "-Inf" else "+Inf"
  | S754_zero s => sign_text s +:+ fixed_text (0, - p)%Z
  | S754_finite s m e => sign_text s +:+ fixed_text (fixed_units p m e, - p)%Z
  end.
(** parsenum (fmt, print.go); precisions over a million are left out. *)
Fixpoint read_prec (acc : Z) (s : string) : option Z :=
  match s with
  | "" => None
  | String c r =>
      match digit c with
      | Some d => read_prec (10 * acc + d) r
      | None => if decide (String c r = "f" /\ acc <= 1000000)%Z then Some acc else None
      end
  end%Z.
Definition float_prec (f : string) : option Z :=
  match f with
  | String c (String d r) =>
      if decide (c = "%"%char) then
        if decide (String d r = "f") then Some 6%Z
        else if decide (d = "."%char) then read_prec 0 r else None
      else None
  | _ => None
  end.
(** With a space before it. *)
Definition go_prt (base : PrintRT) : PrintRT :=
  {| pr_float := fun f x =>
       match f with
       | String c r =>
           if decide (c = " "%char) then
             match float_prec r with Some p => " " +:+ fmt_prec p x | None => @pr_float base f x end
           else @pr_float base f x
       | "" => @pr_float base f x
       end;
     pr_addr := @pr_addr base; pr_format := @pr_format base |}.
