(** Floats printed with a fixed number of decimals: C98. The specification is
    in Spec_Fixed.v. *)
From Verif Require Import M_Fixed.
From Verif Require Import P_Exec.
From Coq Require Import Reals.
From stdpp Require Import strings pretty list.
From Verif Require Import Spec_Print P_PrintMain P_Auto4 Spec_Strconv Spec_Fixed P_FixedMain P_Base P_Check.
From Verif Require Import Spec_Json.
Local Open Scope Z_scope.

(** C98 The text is the number rounded to [p] decimals, ties to even, and that
    determines the text. *)
Theorem C98_printed : forall p x s, 0 <= p -> s = fmt_prec p x <-> shows p x s.
Proof. exact C98_printed_main. Qed.
Print Assumptions C98_printed.
(** It is off by at most half a unit of the last decimal, and nothing with [p]
    decimals is closer. *)
Theorem C98_bound : forall p r, (Rabs (to_decimals p r - r) <= / 2 * powerRZ 10 (- p))%R /\
  forall z, (Rabs (to_decimals p r - r) <= Rabs (IZR z * powerRZ 10 (- p) - r))%R.
Proof. exact C98_bound_main. Qed.
Print Assumptions C98_bound.
(** When two numbers are printed alike. *)
Theorem C98_same : forall p x y, 0 <= p -> finite x -> finite y ->
  fmt_prec p x = fmt_prec p y <-> negative x = negative y /\ to_decimals p (real_of x) = to_decimals p (real_of y).
Proof. exact C98_same_main. Qed.
Print Assumptions C98_same.
Theorem C98_apart : forall p x y, 0 <= p -> finite x -> finite y -> (powerRZ 10 (- p) < Rabs (real_of x - real_of y))%R -> fmt_prec p x <> fmt_prec p y.
Proof. exact C98_apart_main. Qed.
Print Assumptions C98_apart.
(** What is read back. *)
Theorem C98_read : forall p x, 0 <= p -> finite x -> rounded (negative x) (to_decimals p (real_of x)) (parse_f64 (fmt_prec p x)).
Proof. exact C98_read_main. Qed.
Print Assumptions C98_read.
Theorem C98_exact : forall p x, 1074 <= p -> is_f64 x -> finite x ->
  to_decimals p (real_of x) = real_of x /\ parse_f64 (fmt_prec p x) = Some x.
Proof. exact C98_exact_main. Qed.
Print Assumptions C98_exact.
Theorem C98_special : forall p x, ~ finite x -> is_f64 x -> parse_f64 (fmt_prec p x) = Some x.
Proof. exact C98_special_main. Qed.
Print Assumptions C98_special.
(** PrintHead and PrintRecords. *)
Theorem C98_head : forall (base : PrintRT), forall h d n fmt p, wf h d -> asks fmt p -> let t := abs h d in
  exists flt lf li lb lo, (forall x s, flt x = " " +:+ s <-> shows p x s) /\
    in_order (fun c => is_Some (t_cols t !! (KFloat, c))) lf /\ in_order (fun c => is_Some (t_cols t !! (KInt, c))) li /\
    in_order (fun c => is_Some (t_cols t !! (KBool, c))) lb /\ in_order (fun c => is_Some (t_cols t !! (KObj, c))) lo /\
    @print_head (go_prt base) n fmt d h =
      match mapM (column_line flt (@pr_addr base) t (rows_shown n t))
                 ((pair KFloat <$> lf) ++ (pair KInt <$> li) ++ (pair KBool <$> lb) ++ (pair KObj <$> lo)) with
      | Some lines => Ok (text lines, h)
      | None => Panic
      end.
Proof. intros base. exact (C98_head_main base). Qed.
Print Assumptions C98_head.
Theorem C98_records_partial : forall (base : PrintRT), forall h d n fmt p short, (forall s, no_percent s -> @pr_format base s = s) -> wf h d -> asks fmt p -> let t := abs h d in
  (forall k c, is_Some (t_cols t !! (k, c)) -> no_percent (default c (short !! c))) ->
  exists flt names w, (forall x s, flt x = " " +:+ s <-> shows p x s) /\
    in_order (fun c => exists k, is_Some (t_cols t !! (k, c))) names /\
    (w = if decide (10 < Z.of_nat (rows_shown n t) <= 10000)%Z then String.length (pretty (Z.of_nat (rows_shown n t - 1))) else 0%nat) /\
    @print_records (go_prt base) n fmt short d h =
      match mapM (record_line flt (@pr_addr base) t (fun c => default c (short !! c)) names w (inds d)) (seq 0 (rows_shown n t)) with
      | Some lines => Ok (text lines, h)
      | None => Panic
      end.
Proof. intros base. exact (C98_records_partial_main base). Qed.
Print Assumptions C98_records_partial.
Example C98_case :
  fmt_prec 2 <$> half_way = ["0.12"; "0.38"; "-0.62"; "-0.00"] /\ Forall (fun x => is_f64 x /\ finite x) half_way /\
  fmt_prec 20 tenth = "0.10000000000000000555" /\ fmt_prec 0 (scaled 10 false 25 (-1)) = "2" /\
  asks "" 3 /\ asks "%.4f" 4 /\
  fmt_prec 6 (scaled 10 true 123456789 2) = "-12345678900.000000".
Proof. exact C98_check_main. Qed.
Example C98_head_case : wf ex_vh ex_v /\ @print_head (go_prt ex_prt) 2 "%.1f" ex_v ex_vh = Ok (text
  ["b: 1.0 0.5"; line_end; "a: 9 5"; line_end; "f: 1 1"; line_end; "s: 'yy' 'x'"; line_end], ex_vh).
Proof. exact C98_head_check_main. Qed.
(** A number that is not zero can be printed as a zero with a minus sign. *)
Theorem C98_zero_refuted : exists x, is_f64 x /\ finite x /\ real_of x <> 0%R /\ fmt_prec 3 x = "-0.000" /\ parse_f64 (fmt_prec 3 x) <> Some x.
Proof. exact C98_zero_refuted_main. Qed.
Print Assumptions C98_zero_refuted.
