(** PrintHead and PrintRecords: the property theorems C81 and C82. The
    specification is in Spec_Print.v. *)
From stdpp Require Import pretty.
From Coq Require Import Strings.Ascii.
From Verif Require Import M_Print Spec_Print P_PrintMain P_Auto4 P_Check.

(** C81 PrintHead. *)
Theorem C81_head : forall (prt : PrintRT), forall h d n fmt, wf h d -> let t := abs h d in
  exists lf li lb lo, in_order (fun c => is_Some (t_cols t !! (KFloat, c))) lf /\ in_order (fun c => is_Some (t_cols t !! (KInt, c))) li /\
    in_order (fun c => is_Some (t_cols t !! (KBool, c))) lb /\ in_order (fun c => is_Some (t_cols t !! (KObj, c))) lo /\
    print_head n fmt d h =
      match mapM (column_line (pr_float (spaced fmt)) pr_addr t (rows_shown n t))
                 ((pair KFloat <$> lf) ++ (pair KInt <$> li) ++ (pair KBool <$> lb) ++ (pair KObj <$> lo)) with
      | Some lines => Ok (text lines, h)
      | None => Panic
      end.
Proof. intros prt. exact C81_head_main. Qed.
Print Assumptions C81_head.
Theorem C81_panics : forall (prt : PrintRT), forall h d n fmt, wf h d -> let t := abs h d in
  print_head n fmt d h = Panic <->
  exists c col i id, c ∈ t_strs t /\ t_enc t = None /\ t_cols t !! (KObj, c) = Some col /\ i < rows_shown n t /\ col !! i = Some (VObj (OOther id)).
Proof. intros prt. exact C81_panics_main. Qed.
Print Assumptions C81_panics.
Local Existing Instance ex_rt.
Local Existing Instance ex_prt.
Example C81_case : wf ex_vh ex_v /\ print_head 2 "" ex_v ex_vh = Ok (text
  ["b: high low"; line_end; "a: 9 5"; line_end; "f: 1 1"; line_end; "s: 'yy' 'x'"; line_end], ex_vh).
Proof. exact C81_check_main. Qed.

(** C82 PrintRecords, if names and shorthands have no percent sign. *)
Theorem C82_records_partial : forall (prt : PrintRT), forall h d n fmt short, (forall s, no_percent s -> pr_format s = s) -> wf h d -> let t := abs h d in
  (forall k c, is_Some (t_cols t !! (k, c)) -> no_percent (default c (short !! c))) ->
  exists names w, in_order (fun c => exists k, is_Some (t_cols t !! (k, c))) names /\
    (w = if decide (10 < Z.of_nat (rows_shown n t) <= 10000)%Z then String.length (pretty (Z.of_nat (rows_shown n t - 1))) else 0) /\
    print_records n fmt short d h =
      match mapM (record_line (pr_float (spaced fmt)) pr_addr t (fun c => default c (short !! c)) names w (inds d)) (seq 0 (rows_shown n t)) with
      | Some lines => Ok (text lines, h)
      | None => Panic
      end.
Proof. intros prt. exact C82_records_partial_main. Qed.
Print Assumptions C82_records_partial.
Example C82_case : (forall s, no_percent s -> pr_format s = s) /\ wf ex_vh ex_v /\
  (forall k c, is_Some (t_cols (abs ex_vh ex_v) !! (k, c)) -> no_percent (default c ((∅ : gmap string string) !! c))) /\
  print_records 2 "" ∅ ex_v ex_vh = Ok (text
    ["[0:2] a: 9 b: high f: 1 s: 'yy'"; line_end; "[1:0] a: 5 b: low f: 1 s: 'x'"; line_end], ex_vh).
Proof. exact C82_check_main. Qed.
(** Names are used as formats. *)
Theorem C82_percent_refuted : exists (prt : PrintRT) d h, (forall s, no_percent s -> pr_format s = s) /\ wf h d /\
  is_Some (t_cols (abs h d) !! (KInt, "%%")) /\ print_records 1 "" ∅ d h = Ok ("[0:0] %: 7" +:+ line_end, h).
Proof. exact C82_percent_refuted_main. Qed.
Print Assumptions C82_percent_refuted.
(** Of two columns with the same name only one is printed. *)
Theorem C82_same_name_refuted : exists (prt : PrintRT) d1 h1 d2 h2 s, wf h1 d1 /\ wf h2 d2 /\
  t_cols (abs h1 d1) !! (KInt, "x") <> t_cols (abs h2 d2) !! (KInt, "x") /\
  print_head 1 "" d1 h1 <> Panic /\ print_records 1 "" ∅ d1 h1 = Ok (s, h1) /\ print_records 1 "" ∅ d2 h2 = Ok (s, h2).
Proof. exact C82_same_name_refuted_main. Qed.
Print Assumptions C82_same_name_refuted.
