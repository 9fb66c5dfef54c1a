(** Two tables that agree on some columns (C107). *)
From Verif Require Import Spec.
From stdpp Require Import strings list.

Definition agree (cols : gset string) (t1 t2 : table) : Prop :=
  t_rows t1 = t_rows t2 /\ forall k, k.2 ∈ cols -> t_cols t1 !! k = t_cols t2 !! k.
