(** PrintSummary: C89. *)
From stdpp Require Import pretty.
From Coq Require Import Strings.Ascii.
From Verif Require Import M_Summary Spec_Print P_View2 P_LinReg5.
From Verif Require Import P_Print P_PrintMain P_Auto4 P_Check.

(** Names between blanks. *)
Definition listed (l : list string) : string :=
  match l with [] => "" | c :: l => c +:+ text ((fun c => " " +:+ c) <$> l) end.
Definition entry (label : string) (l : list string) : string := label +:+ "[" +:+ listed l +:+ "]" +:+ line_end.
Definition entry_if_any (label : string) (l : list string) : list string := if decide (l = []) then [] else [entry label l].

Lemma concat_listed l : String.concat " " l = listed l.
Proof.
  destruct l as [|c l]; [done|]. revert c. induction l as [|c' l IH]; intros c; [cbn; by rewrite append_nil_r|].
  change (String.concat " " (c :: c' :: l)) with (c +:+ " " +:+ String.concat " " (c' :: l)). rewrite IH. cbn [listed fmap list_fmap].
  change (text ((" " +:+ c') :: ((fun c => " " +:+ c) <$> l))) with ((" " +:+ c') +:+ text ((fun c => " " +:+ c) <$> l)). by rewrite !append_assoc.
Qed.
Lemma names_entry label X : names_line label X = entry label (sort_strings (elements X)).
Proof. unfold names_line, go_list, entry. rewrite concat_listed. by rewrite !append_assoc. Qed.
Lemma sorted_nil (X : gset string) : sort_strings (elements X) = [] <-> X = ∅.
Proof.
  destruct (sort_in_order X) as (_ & _ & H). split.
  - intros E. apply set_eq. intros c. rewrite <- H, E. set_solver.
  - intros ->. by rewrite elements_empty.
Qed.
Lemma line_entry label X : line_if (set_nonempty X) (names_line label X) = text (entry_if_any label (sort_strings (elements X))).
Proof.
  unfold line_if, set_nonempty, entry_if_any. destruct (decide (X = ∅)) as [E|E].
  - rewrite bool_decide_eq_false_2 by tauto. by rewrite decide_True by (by apply sorted_nil).
  - rewrite bool_decide_eq_true_2 by done. rewrite decide_False by (by rewrite sorted_nil). cbn. by rewrite append_nil_r, names_entry.
Qed.
Lemma C89_summary_main : forall (h : heap) (d : dframe) (uid : Z), let t := abs h d in
  exists lf li lb lo ls lv objects,
    in_order (fun c => is_Some (t_cols t !! (KFloat, c))) lf /\ in_order (fun c => is_Some (t_cols t !! (KInt, c))) li /\
    in_order (fun c => is_Some (t_cols t !! (KBool, c))) lb /\
    in_order (fun c => is_Some (t_cols t !! (KObj, c)) /\ c ∉ t_strs t) lo /\ in_order (fun c => c ∈ t_strs t) ls /\
    in_order (fun c => c ∈ oshr h (r_shared (d_raw d))) lv /\
    (* the line of the objects is also printed if all of them are strings *)
    ((exists c, is_Some (t_cols t !! (KObj, c))) /\ objects = [entry "object  " lo] \/
     (forall c, t_cols t !! (KObj, c) = None) /\ objects = []) /\
    print_summary uid d h = Ok (text (
      entry_if_any "float   " lf ++ entry_if_any "int     " li ++ entry_if_any "bool    " lb ++ objects ++
      entry_if_any "string  " ls ++ entry_if_any "viewed  " lv ++
      (if r_sharedMaps (d_raw d) then ["shared  YES (structure ID: " +:+ pretty uid +:+ ")" +:+ line_end] else []) ++
      ["rows    " +:+ pretty (Z.of_nat (t_rows t)) +:+ line_end; "max CPU " +:+ pretty (t_cpu t) +:+ line_end] ++
      (if d_viewed d then ["row-wise view: " +:+ pretty (Z.of_nat (t_rows t)) +:+ " / " +:+ pretty (Z.of_nat (s_len (d_mask d))) +:+ " rows" +:+ line_end] else [])), h).
Proof.
  intros h d uid t. set (m := mp h (r_maps (d_raw d))). set (O := names_of KObj m). set (S := ostr h (r_strs (d_raw d))). set (V := oshr h (r_shared (d_raw d))).
  exists (sort_strings (elements (names_of KFloat m))), (sort_strings (elements (names_of KInt m))), (sort_strings (elements (names_of KBool m))),
    (sort_strings (elements (O ∖ S))), (sort_strings (elements S)), (sort_strings (elements V)),
    (if decide (O = ∅) then [] else [entry "object  " (sort_strings (elements (O ∖ S)))]).
  do 3 (split; [apply order_kind|]). split.
  { destruct (sort_in_order (O ∖ S)) as (A & B & C). split; [done|]. split; [done|]. intros c. rewrite C, elem_of_difference. unfold O, m. by rewrite names_kind. }
  split; [apply sort_in_order|]. split; [apply sort_in_order|]. split.
  { destruct (decide (O = ∅)) as [E|E]; [right|left]; split; try done.
    - intros c. apply eq_None_not_Some. intros H. apply names_kind in H. fold m O in H. rewrite E in H. set_solver.
    - apply set_choose_L in E as [c Hc]. exists c. by apply names_kind. }
  unfold print_summary. cbv zeta. fold m O S V. rewrite !line_entry. do 2 f_equal. rewrite !text_app. f_equal. f_equal. f_equal. f_equal.
  { unfold line_if, set_nonempty. destruct (decide (O = ∅)) as [E|E].
    - by rewrite bool_decide_eq_false_2 by tauto.
    - rewrite bool_decide_eq_true_2 by done. rewrite names_entry. cbn [text foldr]. by rewrite append_nil_r. }
  f_equal. f_equal. f_equal; [destruct (r_sharedMaps (d_raw d)); cbn [text foldr line_if]; by rewrite ?append_nil_r|]. destruct (d_viewed d); cbn [text foldr line_if]; by rewrite ?append_nil_r, !append_assoc.
Qed.
Section wit.
Existing Instance ex_rt.
Definition w89 : dframe * heap := run_df (index_view ex_d [0; 0; 1; 1; 2; 2]%Z) ex_h.
Lemma C89_check_main : print_summary 7 ex_v ex_vh = Ok (text
  ["float   [b]"; line_end; "int     [a]"; line_end; "bool    [f]"; line_end; "object  []"; line_end; "string  [s]"; line_end;
   "shared  YES (structure ID: 7)"; line_end; "rows    3"; line_end; "max CPU 3"; line_end; "row-wise view: 3 / 4 rows"; line_end], ex_vh).
Proof. by vm_compute. Qed.
(** The number of rows after the slash is not that of the data. *)
Lemma C89_total_refuted_main : exists (d v : dframe) (h h' : heap), wf h d /\ wf h' v /\ index_view d [0; 0; 1; 1; 2; 2]%Z h = Ok (v, h') /\
  t_rows (abs h d) = 4 /\ exists pre, print_summary 0 v h' = Ok (text (pre ++ ["row-wise view: 6 / 6 rows"; line_end]), h').
Proof.
  exists ex_d, w89.1, ex_h, w89.2. split; [exact ex_wf|]. split; [apply (wf_check_sound _ _ 4); by vm_compute|]. split; [by vm_compute|]. split; [by vm_compute|].
  exists ["float   [b]"; line_end; "int     [a]"; line_end; "bool    [f]"; line_end; "object  []"; line_end; "string  [s]"; line_end;
   "shared  YES (structure ID: 0)"; line_end; "rows    6"; line_end; "max CPU 3"; line_end]. by vm_compute.
Qed.
End wit.
