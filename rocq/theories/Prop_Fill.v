(** The dataframes of the test suite: C103. *)
From Verif Require Import M_Fill P_FillMain.
From Verif Require Import P_Builder.
From stdpp Require Import strings list.
From Verif Require Import Spec_Fill P_Base P_Check.

(** C103 fillBlanks keeps what was built and adds what is lacking, unless the name
    of a column of objects it adds is taken ... *)
Theorem C103_fill : forall (rt : GoRT), forall ord ids os h n, (forall m, ord m ≡ₚ map_to_list m) -> Forall bop_typed os ->
  let b := foldl spec_bop (BState ∅ ∅ None) os in even_rows b n -> free_names b ->
  exists d h', (let* r := new_raw in let* r := run_bops r os in fill_blanks ord ids r) h = Ok (d, h') /\ wf h' d /\ preserved h h' /\
    let t := abs h' d in t_rows t = n /\ t_enc t = bs_enc b /\
    (forall k vs, t_cols t !! k = Some vs <-> bs_cols b !! k = Some vs \/ added ids n b k vs) /\
    (forall c, c ∈ t_strs t <-> c ∈ bs_strs b \/ (bs_strs b = ∅ /\ c = "SomeStrings")) /\
    (forall k, exists c, is_Some (t_cols t !! (k, c))) /\
    (exists c, c ∈ t_strs t /\ is_Some (t_cols t !! (KObj, c))) /\
    (exists c, c ∉ t_strs t /\ is_Some (t_cols t !! (KObj, c))).
Proof. intros rt. exact C103_fill_main. Qed.
Print Assumptions C103_fill.
(** ... in which case it panics. *)
Theorem C103_clash : forall (rt : GoRT), forall ord ids os h n, (forall m, ord m ≡ₚ map_to_list m) -> Forall bop_typed os ->
  let b := foldl spec_bop (BState ∅ ∅ None) os in even_rows b n -> 0 < n ->
  (all_strings b /\ is_Some (bs_cols b !! (KObj, "SomeObjects"))) \/ (bs_strs b = ∅ /\ is_Some (bs_cols b !! (KObj, "SomeStrings"))) ->
  (let* r := new_raw in let* r := run_bops r os in fill_blanks ord ids r) h = Panic.
Proof. intros rt. exact C103_clash_main. Qed.
Print Assumptions C103_clash.
Example C103_case : let b := foldl spec_bop (BState ∅ ∅ None) fill_os in let c := foldl spec_bop (BState ∅ ∅ None) clash_os in
  Forall bop_typed fill_os /\ even_rows b 3 /\ free_names b /\ all_strings b /\ lacks b KFloat /\
  Forall bop_typed clash_os /\ even_rows c 2 /\ all_strings c /\ is_Some (bs_cols c !! (KObj, "SomeObjects")).
Proof. exact C103_check_main. Qed.
