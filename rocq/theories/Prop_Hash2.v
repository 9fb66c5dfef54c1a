(** HashStringsView, continued: C24. *)
From Verif Require Import P_Hash2Main.
From stdpp Require Import strings list.
From Verif Require Import Spec_Hash2 P_Base P_Check.

(** C24 HashStringsView panics exactly if there are rows and one of the columns
    is not an object column. (The panic is that of a goroutine: it cannot be
    recovered from.) *)
Theorem C24_panics : forall (rt : GoRT), forall (h : heap) (d : dframe) (cols : list string), wf h d -> cols <> [] ->
  hash_strings_view d cols h = Panic <->
  0 < t_rows (abs h d) /\ exists c, c ∈ cols /\ t_cols (abs h d) !! (KObj, c) = None.
Proof. intros rt. exact C24_panics_main. Qed.
Print Assumptions C24_panics.
(** If every column is hashed, the int columns are added to the dataframe
    itself, the object columns stay and the result is a mere view of it. *)
Theorem C24_all_columns : forall (rt : GoRT), forall (h : heap) (d : dframe) (cols : list string), wf h d -> cols <> [] ->
  (forall c, c ∈ cols -> is_Some (t_cols (abs h d) !! (KObj, c))) ->
  (forall k, is_Some (t_cols (abs h d) !! k) -> k.2 ∈ cols) ->
  exists h', hash_strings_view d cols h = Ok (view d, h') /\
    (* the original dataframe has been changed *)
    wf h' d /\ abs h' d = t_hash_onto cols (abs h d) /\ abs h' (view d) = abs h' d /\
    (* but no dataframe that has other maps *)
    forall d', wf h d' -> r_maps (d_raw d') <> r_maps (d_raw d) -> wf h' d' /\ abs h' d' = abs h d'.
Proof. intros rt. exact C24_all_columns_main. Qed.
Print Assumptions C24_all_columns.
Example C24_panic_case : wf c24_h c24_d /\ t_rows (abs c24_h c24_d) = 2 /\ t_cols (abs c24_h c24_d) !! (KObj, "x") = None /\
  (forall c, c ∈ ["s"] -> is_Some (t_cols (abs c24_h c24_d) !! (KObj, c))) /\
  t_cols (t_hash_onto ["s"] (abs c24_h c24_d)) !! (KObj, "s") = Some [VObj (OStr "x"); VObj ONil] /\
  t_cols (t_hash_onto ["s"] (abs c24_h c24_d)) !! (KInt, "s") = Some [spec_hash (VObj (OStr "x")); VInt (-1)].
Proof. exact C24_panic_case_main. Qed.
