(** What a CSV file that was written and read again should contain. *)
From Verif Require Export M_CsvText.

(** What becomes of a field: Go's reader takes CR LF for LF, and the writer
    drops CR if it is told to use CR LF. *)
Fixpoint without_cr (s : string) : string :=
  match s with
  | "" => ""
  | String c s => if decide (c = cCR) then without_cr s else String c (without_cr s)
  end.
Fixpoint merge_crlf (s : string) : string :=
  match s with
  | String c1 ((String c2 _) as r) =>
      if decide (c1 = cCR /\ c2 = cLF) then merge_crlf r else String c1 (merge_crlf r)
  | s => s
  end.
Definition field_back (crlf : bool) (f : string) : string := if crlf then without_cr f else merge_crlf f.
(** A field without anything special in it. *)
Definition plain_field (comma : ascii) (f : string) : Prop :=
  (forall c, has c f = true -> c <> comma /\ c <> cQuote /\ c <> cCR /\ c <> cLF) /\ f <> "\." /\ space_len f = 0.
(** Lines without a byte, which the reader skips. *)
Definition blank_record (r : list string) : Prop := r = [] \/ r = [""].
(** Records whose line looks like a comment. *)
Definition comment_like (comma : ascii) (comment : option ascii) (r : list string) : Prop :=
  exists k f fs, comment = Some k /\ r = String k f :: fs /\ plain_field comma (String k f).
Definition one_line (r : list string) : Prop := forall f, f ∈ r -> has cLF f = false.
Definition usable (d : dialect) : Prop :=
  valid_delim (di_comma d) = true /\
  (forall k, di_comment d = Some k -> valid_delim k = true /\ k <> di_comma d).
(** A blank as delimiter does not go together with TrimLeadingSpace. *)
Definition no_blank_comma (d : dialect) : Prop :=
  di_trim d = true -> space_len (String (di_comma d) "") = 0.
Definition one_width (recs : list (list string)) : Prop :=
  forall r r', r ∈ recs -> r' ∈ recs -> length r = length r'.
