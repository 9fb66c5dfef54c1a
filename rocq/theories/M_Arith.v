(** Number arithmetic as a parameter of the numeric code of /repo/preprocessing
    and /repo/algorithms, so that one and the same model function can be read over
    float64 and over the real numbers ("exact arithmetic"). Products and sums are
    not fused, as on amd64. *)
From Verif Require Export M_Base.
From Coq Require Import Reals.

Record arith := Arith {
  num : Type;
  a_of : Z -> num;                     (* float64(n) *)
  a_add : num -> num -> num; a_sub : num -> num -> num;
  a_mul : num -> num -> num; a_div : num -> num -> num;
  a_opp : num -> num;
  a_sqrt : num -> num; a_abs : num -> num;   (* math.Sqrt, math.Abs *)
  a_isnan : num -> bool;               (* math.IsNaN *)
  a_lt : num -> num -> bool; a_eq : num -> num -> bool;
  a_inf : bool -> num                  (* math.Inf; true for -Inf *) }.

Definition f64_arith : arith :=
  Arith f64 f64_of_Z f64_add f64_sub f64_mul f64_div SFopp (SFsqrt 53 1024) SFabs
        f64_isnan f64_lt (fun x y => SFeqb x y) S754_infinity.

(** Exact arithmetic: the real numbers with infinities and NaN (a missing value). There is one zero only, so
    that x/0 is +Inf for positive x. *)
Inductive xr := XR (r : R) | XInf (neg : bool) | XNaN.
Definition x_sign (r : R) : option bool :=
  if Rlt_dec r 0 then Some true else if Rlt_dec 0 r then Some false else None.
Definition x_opp (x : xr) : xr :=
  match x with XR r => XR (- r)%R | XInf s => XInf (negb s) | XNaN => XNaN end.
Definition x_add (x y : xr) : xr :=
  match x, y with
  | XR a, XR b => XR (a + b)%R
  | XInf s, XInf t => if Bool.eqb s t then XInf s else XNaN
  | XInf s, XR _ => XInf s
  | XR _, XInf s => XInf s
  | XNaN, _ => XNaN
  | _, XNaN => XNaN
  end.
Definition x_mul (x y : xr) : xr :=
  match x, y with
  | XR a, XR b => XR (a * b)%R
  | XInf s, XInf t => XInf (xorb s t)
  | XInf s, XR b => match x_sign b with Some t => XInf (xorb s t) | None => XNaN end
  | XR a, XInf s => match x_sign a with Some t => XInf (xorb s t) | None => XNaN end
  | XNaN, _ => XNaN
  | _, XNaN => XNaN
  end.
Definition x_div (x y : xr) : xr :=
  match x, y with
  | XR a, XR b =>
      if Req_EM_T b 0 then match x_sign a with Some s => XInf s | None => XNaN end else XR (a / b)%R
  | XInf _, XInf _ => XNaN
  | XInf s, XR b => match x_sign b with Some t => XInf (xorb s t) | None => XInf s end
  | XR a, XInf s => XR 0
  | XNaN, _ => XNaN
  | _, XNaN => XNaN
  end.
Definition x_sqrt (x : xr) : xr :=
  match x with
  | XR r => if Rlt_dec r 0 then XNaN else XR (sqrt r)
  | XInf false => XInf false
  | _ => XNaN
  end.
Definition x_abs (x : xr) : xr :=
  match x with XR r => XR (Rabs r) | XInf _ => XInf false | XNaN => XNaN end.
Definition x_isnan (x : xr) : bool := match x with XNaN => true | _ => false end.
Definition x_lt (x y : xr) : bool :=
  match x, y with
  | XR a, XR b => if Rlt_dec a b then true else false
  | XInf true, XR _ => true
  | XInf true, XInf false => true
  | XR _, XInf false => true
  | _, _ => false
  end.
Definition x_eq (x y : xr) : bool :=
  match x, y with
  | XR a, XR b => if Req_EM_T a b then true else false
  | XInf s, XInf t => Bool.eqb s t
  | _, _ => false
  end.
Definition real_arith : arith :=
  Arith xr (fun z => XR (IZR z)) x_add (fun x y => x_add x (x_opp y)) x_mul x_div x_opp x_sqrt x_abs
        x_isnan x_lt x_eq XInf.
