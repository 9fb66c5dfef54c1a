(** PrintSummary: C89. *)
From stdpp Require Import pretty.
From Coq Require Import Strings.Ascii.
From Verif Require Import M_Summary Spec_Print P_SummaryMain P_Auto4 P_Check.

(** C89 The printed text. *)
Theorem C89_summary : forall (h : heap) (d : dframe) (uid : Z), let t := abs h d in
  exists lf li lb lo ls lv objects,
    in_order (fun c => is_Some (t_cols t !! (KFloat, c))) lf /\ in_order (fun c => is_Some (t_cols t !! (KInt, c))) li /\
    in_order (fun c => is_Some (t_cols t !! (KBool, c))) lb /\
    in_order (fun c => is_Some (t_cols t !! (KObj, c)) /\ c ∉ t_strs t) lo /\ in_order (fun c => c ∈ t_strs t) ls /\
    in_order (fun c => c ∈ oshr h (r_shared (d_raw d))) lv /\
    (* the line of the objects is also printed if all of them are strings *)
    ((exists c, is_Some (t_cols t !! (KObj, c))) /\ objects = [entry "object  " lo] \/
     (forall c, t_cols t !! (KObj, c) = None) /\ objects = []) /\
    print_summary uid d h = Ok (text (
      entry_if_any "float   " lf ++ entry_if_any "int     " li ++ entry_if_any "bool    " lb ++ objects ++
      entry_if_any "string  " ls ++ entry_if_any "viewed  " lv ++
      (if r_sharedMaps (d_raw d) then ["shared  YES (structure ID: " +:+ pretty uid +:+ ")" +:+ line_end] else []) ++
      ["rows    " +:+ pretty (Z.of_nat (t_rows t)) +:+ line_end; "max CPU " +:+ pretty (t_cpu t) +:+ line_end] ++
      (if d_viewed d then ["row-wise view: " +:+ pretty (Z.of_nat (t_rows t)) +:+ " / " +:+ pretty (Z.of_nat (s_len (d_mask d))) +:+ " rows" +:+ line_end] else [])), h).
Proof. exact C89_summary_main. Qed.
Print Assumptions C89_summary.
Local Existing Instance ex_rt.
Example C89_case : print_summary 7 ex_v ex_vh = Ok (text
  ["float   [b]"; line_end; "int     [a]"; line_end; "bool    [f]"; line_end; "object  []"; line_end; "string  [s]"; line_end;
   "shared  YES (structure ID: 7)"; line_end; "rows    3"; line_end; "max CPU 3"; line_end; "row-wise view: 3 / 4 rows"; line_end], ex_vh).
Proof. exact C89_check_main. Qed.
(** The number after the slash is not the number of rows of the data. *)
Theorem C89_total_refuted : exists (d v : dframe) (h h' : heap), wf h d /\ wf h' v /\ index_view d [0; 0; 1; 1; 2; 2]%Z h = Ok (v, h') /\
  t_rows (abs h d) = 4 /\ exists pre, print_summary 0 v h' = Ok (text (pre ++ ["row-wise view: 6 / 6 rows"; line_end]), h').
Proof. exact C89_total_refuted_main. Qed.
Print Assumptions C89_total_refuted.
