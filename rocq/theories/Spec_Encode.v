(** Independent specification of Encode. *)
From Verif Require Export Spec.

(** Re-encode the strings of a value; nil stays nil. *)
Definition conv_val (conv : string -> option string) (v : val) : val :=
  match v with VObj (OStr s) => VObj (OStr (default s (conv s))) | v => v end.
(** The table with all strings of the string columns re-encoded. *)
Definition t_encode (conv : string -> option string) (new : option nat) (t : table) : table :=
  Table (t_rows t)
        (map_imap (fun k col => Some (if decide (k.1 = KObj /\ k.2 ∈ t_strs t) then map (conv_val conv) col else col))
                  (t_cols t))
        (t_strs t) new (t_cpu t).
(** The values shown in the columns marked as strings. *)
Definition str_value (t : table) (v : val) : Prop :=
  exists c col, c ∈ t_strs t /\ t_cols t !! (KObj, c) = Some col /\ v ∈ col.
(** A value Encode can deal with at all. *)
Definition is_str (v : val) : Prop :=
  match v with VObj ONil | VObj (OStr _) => True | _ => False end.
