(** strconv of Go 1.15: ParseFloat(s, 64), which dataframe/csv_parsing.go:109,
    124 and encoding/json call, FormatFloat(x, 'f', -1, 64), which
    dataframe/csv_writing.go:86 calls, and AppendFloat as encoding/json calls it.
    Text is a sequence of bytes. The algorithms of strconv that find the nearest
    float64 and the shortest decimal are replaced by integer arithmetic. *)
From Verif Require Export M_Json.
From stdpp Require Import pretty.

(** (-1)^s * p / q rounded to the nearest float64, ties to even; infinite if it
    is too large. *)
Definition nearest (s : bool) (p q : positive) : f64 :=
  SFdiv 53 1024 (S754_finite s p 0) (S754_finite false q 0).
(** The same for (-1)^s * m * b^e. *)
Definition scaled (b : positive) (s : bool) (m e : Z) : f64 :=
  match m with
  | Zpos p =>
      match e with
      | Zneg k => nearest s p (b ^ k)
      | Z0 => nearest s p 1
      | Zpos k => nearest s (p * b ^ k) 1
      end
  | _ => S754_zero s
  end.

(** ** ParseFloat *)
(** special (atof.go) *)
Definition lower (c : ascii) : ascii := if brange 65 (code c) 90 then ascii_of_nat (code c + 32) else c.
Fixpoint lowers (s : string) : string :=
  match s with "" => "" | String c s => String (lower c) (lowers s) end.
Definition special (s : string) : option f64 :=
  let t := lowers s in
  if decide (t ∈ ["inf"; "+inf"; "infinity"; "+infinity"]) then Some (S754_infinity false)
  else if decide (t ∈ ["-inf"; "-infinity"]) then Some (S754_infinity true)
  else if decide (t = "nan") then Some S754_nan else None.

(** readFloat (atof.go). The mantissa is not cut after 19 digits. *)
Definition fdigit (hex : bool) (c : ascii) : option Z :=
  match digit c with
  | Some d => Some d
  | None => if hex && brange 97 (code (lower c)) 102 then Some (Z.of_nat (code (lower c)) - 87)%Z else None
  end.
Record mant := Mant { mt_val : Z; mt_frac : Z; mt_dot : bool; mt_any : bool; mt_us : bool }.
Fixpoint read_mant (hex : bool) (st : mant) (s : string) : option (mant * string) :=
  let 'Mant v f dot any us := st in
  match s with
  | "" => Some (st, "")
  | String c r =>
      if decide (c = "_"%char) then read_mant hex (Mant v f dot any true) r
      else if decide (c = "."%char) then (if dot then None else read_mant hex (Mant v f true any us) r)
      else match fdigit hex c with
           | Some d => read_mant hex (Mant ((if hex then 16 else 10) * v + d) (if dot then f + 1 else f) dot true us) r
           | None => Some (st, s)
           end
  end%Z.
Fixpoint read_exp (e : Z) (us : bool) (s : string) : option (Z * bool) :=
  match s with
  | "" => Some (e, us)
  | String c r =>
      if decide (c = "_"%char) then read_exp e true r
      else match digit c with
           | Some d => read_exp (if decide (e < 10000) then 10 * e + d else e) us r
           | None => None
           end
  end%Z.
Definition strip_sign (s : string) : bool * string :=
  match s with
  | String c r => if decide (c = "+"%char) then (false, r) else if decide (c = "-"%char) then (true, r) else (false, s)
  | "" => (false, s)
  end.
Definition exp_part (hex : bool) (s : string) : option (Z * bool) :=
  match s with
  | "" => if hex then None else Some (0%Z, false)
  | String c r =>
      if decide (lower c = if hex then "p"%char else "e"%char) then
        let '(neg, t) := strip_sign r in
        match t with
        | String d _ =>
            match digit d, read_exp 0 false t with
            | Some _, Some (e, us) => Some (if neg then (- e)%Z else e, us)
            | _, _ => None
            end
        | "" => None
        end
      else None
  end.
(** underscoreOK (atoi.go): an underscore stands between digits or
    between a base prefix and a digit. *)
Inductive last_seen := SawStart | SawDigit | SawUnder | SawOther.
Fixpoint under_run (hex : bool) (saw : last_seen) (s : string) : bool :=
  match s with
  | "" => match saw with SawUnder => false | _ => true end
  | String c r =>
      match fdigit hex c with
      | Some _ => under_run hex SawDigit r
      | None =>
          if decide (c = "_"%char) then match saw with SawDigit => under_run hex SawUnder r | _ => false end
          else match saw with SawUnder => false | _ => under_run hex SawOther r end
      end
  end.
Definition underscore_ok (s : string) : bool :=
  let '(_, t) := strip_sign s in
  match t with
  | String "0" (String c r) =>
      if decide (lower c = "x"%char) then under_run true SawDigit r
      else if decide (lower c = "b"%char \/ lower c = "o"%char) then under_run false SawDigit r
      else under_run false SawStart t
  | _ => under_run false SawStart t
  end.
(** "0x" and at least one more byte *)
Definition strip_hex (s : string) : bool * string :=
  match s with
  | String "0" (String c (String _ _ as r)) => if decide (lower c = "x"%char) then (true, r) else (false, s)
  | _ => (false, s)
  end.
(** ParseFloat; [None]: an error, of syntax or of range. *)
Definition in_range (x : f64) : option f64 := match x with S754_infinity _ => None | _ => Some x end.
Definition parse_f64 (s : string) : option f64 :=
  match special s with
  | Some x => Some x
  | None =>
      let '(neg, t) := strip_sign s in
      let '(hex, u) := strip_hex t in
      match read_mant hex (Mant 0 0 false false false) u with
      | Some (Mant v f _ true us, r) =>
          match exp_part hex r with
          | Some (e, us') =>
              if (us || us') && negb (underscore_ok s) then None
              else in_range (if hex then scaled 2 neg v (e - 4 * f) else scaled 10 neg v (e - f))
          | None => None
          end
      | _ => None
      end
  end.

(** ** FormatFloat *)
(** The decimal expansion of m * 2^e: digits and exponent of 10. *)
Definition expansion (m : positive) (e : Z) : Z * Z :=
  match e with Zneg k => (Zpos m * 5 ^ Zpos k, e) | _ => (Zpos m * 2 ^ e, 0) end%Z.
Definition ndigits (d : Z) : nat := String.length (pretty (Z.to_N d)).
(** roundShortest (ftoa.go): drop [j] digits of [N * 10^K], rounding
    down or up, if this stays within the numbers that are rounded to [x];
    otherwise drop less. *)
Fixpoint shortest_from (s : bool) (x : f64) (N K : Z) (j : nat) : Z * Z :=
  match j with
  | O => (N, K)
  | S j' =>
      let t := (10 ^ Z.of_nat j)%Z in
      let d := (N / t)%Z in
      let k := (K + Z.of_nat j)%Z in
      let okdown := bool_decide (scaled 10 s d k = x) in
      let okup := bool_decide (scaled 10 s (d + 1) k = x) in
      match okdown, okup with
      | true, true =>
          let r := (N mod t)%Z in
          if decide (t < 2 * r \/ 2 * r = t /\ Z.odd d = true)%Z then (d + 1, k)%Z else (d, k)
      | true, false => (d, k)
      | false, true => (d + 1, k)%Z
      | false, false => shortest_from s x N K j'
      end
  end.
(** trim (decimal.go): zeros at the end. *)
Fixpoint trim (fuel : nat) (p : Z * Z) : Z * Z :=
  match fuel with
  | O => p
  | S fuel => if decide (p.1 mod 10 = 0)%Z then trim fuel (p.1 / 10, p.2 + 1)%Z else p
  end.
Definition shortest (s : bool) (m : positive) (e : Z) : Z * Z :=
  let '(N, K) := expansion m e in
  let '(D, k) := shortest_from s (S754_finite s m e) N K (ndigits N - 1) in
  trim (ndigits D - 1) (D, k).

Definition zeros (n : nat) : string := Nat.iter n (String "0") "".
(** fmtF (ftoa.go) *)
Definition fixed_text (p : Z * Z) : string :=
  let ds := pretty (Z.to_N p.1) in
  let n := String.length ds in
  match p.2 with
  | Zneg f =>
      let f := Pos.to_nat f in
      if Nat.ltb f n then substring 0 (n - f) ds +:+ "." +:+ substring (n - f) f ds
      else "0." +:+ zeros (f - n) +:+ ds
  | k => ds +:+ zeros (Z.to_nat k)
  end.
Definition sign_text (s : bool) : string := if s then "-" else "".
Definition fmt_f64 (x : f64) : string :=
  match x with
  | S754_nan => "NaN"
  | S754_infinity s => if s then "-Inf" else "+Inf"
  | S754_zero s => sign_text s +:+ "0"
  | S754_finite s m e => sign_text s +:+ fixed_text (shortest s m e)
  end.

(** fmtE (ftoa.go) and the clean-up of floatEncoder (encoding/json,
    encode.go), which removes a zero after "e-". *)
Definition exp_text (p : Z * Z) : string :=
  let ds := pretty (Z.to_N p.1) in
  let n := String.length ds in
  let x := (p.2 + Z.of_nat n - 1)%Z in
  substring 0 1 ds +:+ (if decide (n = 1) then "" else "." +:+ substring 1 (n - 1) ds) +:+
  (if decide (x < 0)%Z then "e-" +:+ pretty (Z.to_N (- x))
   else "e+" +:+ (if decide (x < 10)%Z then "0" else "") +:+ pretty (Z.to_N x)).
(** floatEncoder (encode.go): exponents for numbers below 1e-6 and from
    1e21 on. *)
Definition fmt_json (x : f64) : string :=
  match x with
  | S754_finite s m e =>
      let a := S754_finite false m e in
      if f64_lt a (scaled 10 false 1 (-6)) || f64_le (scaled 10 false 1 21) a
      then sign_text s +:+ exp_text (shortest s m e) else fmt_f64 x
  | _ => fmt_f64 x
  end.

Definition go_crt : CsvRT := {| parse_float := parse_f64; fmt_float := fmt_f64 |}.
Definition go_jrt : JsonRT := {| fmt_num := fmt_json; parse_num := parse_f64 |}.
