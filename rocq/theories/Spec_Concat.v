(** Specification of the concatenations. *)
From Verif Require Export Spec.

(** The values of one column over several tables, one after the other. *)
Definition stack_col (ts : list table) (k : key) : list val :=
  concat ((fun t => default [] (t_cols t !! k)) <$> ts).
(** The tables on top of each other, with the columns of the first one. *)
Definition t_stack (t0 : table) (ts : list table) : table :=
  Table (sum_list (t_rows <$> ts))
        (map_imap (fun k _ => Some (stack_col ts k)) (t_cols t0))
        (⋃ (t_strs <$> ts)) None (t_cpu t0).
(** [t] has at least the columns of [t0] / the same columns. *)
Definition has_cols (t0 t : table) : Prop := dom (t_cols t0) ⊆ dom (t_cols t).
Definition same_cols (t0 t : table) : Prop := dom (t_cols t) = dom (t_cols t0).
(** Column names of a table; the number of times a name is used, over several
    tables. *)
Definition t_names (t : table) : list string := (fun k : key => k.2) <$> elements (dom (t_cols t)).
(** The tables side by side; [strs] are the string marks. *)
Definition t_beside (t0 : table) (ts : list table) (strs : gset string) : table :=
  Table (t_rows t0) (⋃ (t_cols <$> ts)) strs None (t_cpu t0).
