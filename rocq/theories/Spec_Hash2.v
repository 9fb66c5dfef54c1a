(** C24, continued: what HashStringsView does when every column is hashed. *)
From Verif Require Import Spec_Read.
From stdpp Require Import strings list.

(** The table with the int columns of hashes added, nothing being removed. *)
Definition t_hash_onto (cols : list string) (t : table) : table :=
  Table (t_rows t) (hash_cols cols (t_cols t) (t_cols t)) (t_strs t) (t_enc t) (t_cpu t).
