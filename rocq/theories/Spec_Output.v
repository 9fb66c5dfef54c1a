(** What a dataframe written to a directory should look like on disk. *)
From Verif Require Export M_Output Spec_Csv Spec_CsvText.

(** The rows of [t] in [n] consecutive pieces of the same size, except for the
    last one. There may be less pieces than [n]. *)
Definition piece_size (rows n : nat) : nat := (rows + n - 1) / n.
Definition num_pieces (rows n : nat) : nat := let b := piece_size rows n in (rows + b - 1) / b.
Definition pieces (t : table) (n : nat) : list table :=
  if decide (t_rows t = 0) then [t] else
  let b := piece_size (t_rows t) n in
  (fun j => t_slice (j * b) (t_rows t `min` (S j * b)) t) <$> seq 0 (num_pieces (t_rows t) n).

Fixpoint no_slash (s : string) : Prop := match s with "" => True | String c r => c <> "/"%char /\ no_slash r end.
(** The pieces of one column put together. *)
Definition glued (k : key) (parts : list table) : list val := concat ((fun p => default [] (t_cols p !! k)) <$> parts).

Section spec.
Context {crt : CsvRT}.
(** [text] is [t] as a CSV file. *)
Definition csv_file (w : wdialect) (marker : string) (t : table) (text : string) : Prop :=
  exists keys rows, csv_order t keys /\ t_records marker keys t = Some rows /\ text = records_text w ((snd <$> keys) :: rows).
(** encoding/csv gives back all cells and column names: no empty line and no
    carriage return that is dropped. *)
Definition kept_text (crlf : bool) (marker : string) (t : table) : Prop :=
  t_cols t <> ∅ /\
  (forall k c, is_Some (t_cols t !! (k, c)) -> c <> "" /\ field_back crlf c = c) /\
  (forall k vs v s, t_cols t !! k = Some vs -> v ∈ vs -> cell_text marker v = Some s ->
     field_back crlf s = s /\ (s <> "" \/ exists k', k' <> k /\ is_Some (t_cols t !! k'))).
End spec.
