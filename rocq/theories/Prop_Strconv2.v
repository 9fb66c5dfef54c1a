(** Floats in text, continued: C91. *)
From Verif Require Import M_Strconv.
From Verif Require Import P_Exec.
From Coq Require Import Reals.
From stdpp Require Import strings list.
From Verif Require Import Spec_Json Spec_Strconv Spec_Under P_Strconv8 P_Strconv9.
Local Open Scope Z_scope.

(** C91 A number with underscores is read like the number without them if
    each underscore stands between two digits; otherwise it is an error. *)
Theorem C91_underscores : forall s, number_chars (without_under s) ->
  (separated s -> parse_f64 s = parse_f64 (without_under s)) /\ (~ separated s -> parse_f64 s = None).
Proof. exact C91_underscores_main. Qed.
Print Assumptions C91_underscores.
Example C91_underscores_case : without_under "1_23.50_0e+1_2" = "123.500e+12" /\ parse_f64 "1_23.50_0e+1_2" = parse_f64 "123.5e12" /\
  is_Some (parse_f64 "123.5e12") /\ parse_f64 "_1" = None /\ parse_f64 "1_" = None /\ parse_f64 "1_.5" = None /\ parse_f64 "1e_5" = None /\ parse_f64 "1__0" = None.
Proof. exact C91_underscores_check_main. Qed.
(** What is written is the even one of two shortest decimals that are equally
    close, in CSV and in JSON. *)
Theorem C91_ties : forall x, is_f64 x -> finite x -> real_of x <> 0%R ->
  exists d dj D k, decimal_text d = fmt_f64 x /\ decimal_text dj = fmt_json x /\ decimal_value d = decimal_value dj /\
    best_for x (decimal_value d) D k /\ half_even x D k.
Proof. exact C91_ties_main. Qed.
Print Assumptions C91_ties.
(** 1125899906842624.25: both neighbours with 17 digits are read as this number. *)
Example C91_ties_case : is_f64 w_tie /\ finite w_tie /\ fmt_f64 w_tie = "1125899906842624.2" /\
  parse_f64 "1125899906842624.3" = Some w_tie /\ parse_f64 "1125899906842624.25" = Some w_tie.
Proof. exact C91_ties_check_main. Qed.
