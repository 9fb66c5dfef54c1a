(** Names of columns with percent signs: C82. *)
From stdpp Require Import pretty.
From Coq Require Import Strings.Ascii.
From Verif Require Import M_Fmt Spec_Print Spec_Fmt P_PrintMain P_FmtMain P_Auto4 P_Check.

(** C82 PrintRecords for all names: the label of a column is what Printf makes of
    its name or shorthand as a format without arguments. *)
Theorem C82_any_names : forall (base : PrintRT) h d n fmt short, wf h d -> let t := abs h d in
  exists names w, in_order (fun c => exists k, is_Some (t_cols t !! (k, c))) names /\
    (w = if decide (10 < Z.of_nat (rows_shown n t) <= 10000)%Z then String.length (pretty (Z.of_nat (rows_shown n t - 1))) else 0) /\
    @print_records (fmt_prt base) n fmt short d h =
      match mapM (record_line (@pr_float base (spaced fmt)) (@pr_addr base) t (fun c => printf0 (default c (short !! c))) names w (inds d)) (seq 0 (rows_shown n t)) with
      | Some lines => Ok (text lines, h)
      | None => Panic
      end.
Proof. exact C82_any_names_main. Qed.
Print Assumptions C82_any_names.
(** What this is. Text without percent sign is printed as it is. *)
Theorem C82_literal : forall u s, no_percent u -> printf0 (u +:+ s) = u +:+ printf0 s.
Proof. exact C82_literal_main. Qed.
Print Assumptions C82_literal.
(** A percent sign, flags, width and precision and a character: replaced by a
    complaint, or by one percent sign. *)
Theorem C82_verb : forall p v rest, a_prefix p -> a_verb v ->
  printf0 ("%" +:+ p +:+ String v rest) = (if decide (v = "%"%char) then "%" else "%!" +:+ String v "(MISSING)") +:+ printf0 rest.
Proof. exact C82_verb_main. Qed.
Print Assumptions C82_verb.
(** The same at the end of the name. *)
Theorem C82_end : forall p, a_prefix p -> printf0 ("%" +:+ p) = "%!(NOVERB)".
Proof. exact C82_end_main. Qed.
Print Assumptions C82_end.
(** So a name is printed as it is if its percent signs are doubled. *)
Theorem C82_doubled : forall s, printf0 (doubled s) = s.
Proof. exact C82_doubled_main. Qed.
Print Assumptions C82_doubled.
Example C82_names_case : wf wf3.2 wf3.1 /\
  @print_records (fmt_prt ex_prt) 1 "" ∅ wf3.1 wf3.2 = Ok (text ["[0:0] %!o(MISSING)f total: 3 10%!(NOVERB): 4 x%y: 5"; line_end], wf3.2) /\
  a_prefix " " /\ a_prefix "-12.5" /\ a_verb "o"%char /\ printf0 "% of total" = "%!o(MISSING)f total" /\ printf0 "%-12.5" = "%!(NOVERB)" /\
  printf0 "%[2]d" = "%!d(BADINDEX)" /\ printf0 "%*.*d" = "%!(BADWIDTH)%!(BADPREC)%!d(MISSING)".
Proof. exact C82_names_check_main. Qed.
(** Two columns can have the same label. *)
Theorem C82_same_label_refuted : exists d h, wf h d /\ t_cols (abs h d) !! (KInt, "% %") = Some [VInt 1] /\ t_cols (abs h d) !! (KInt, "%%") = Some [VInt 2] /\
  forall base, @print_records (fmt_prt base) 1 "" ∅ d h = Ok ("[0:0] %: 1 %: 2" +:+ line_end, h).
Proof. exact C82_same_label_refuted_main. Qed.
Print Assumptions C82_same_label_refuted.
