(** encoding/csv of Go 1.15, as dataframe/csv_parsing.go:180-211 and
    csv_writing.go:37-56 and 103 use it. Text is a sequence of bytes; delimiters
    are single bytes. Go's Reader works line by line; the automaton below works
    byte by byte on the text after the normalisation of the line ends. *)
From Verif Require Export M_CsvW.
From Coq Require Export Strings.Ascii.

Definition cQuote : ascii := "034"%char.
Definition cCR : ascii := "013"%char.
Definition cLF : ascii := "010"%char.
(** Comma, Comment, LazyQuotes, TrimLeadingSpace (csv_parsing.go:45-49); Comma
    and UseCRLF (csv_writing.go:25-26), the default for 0 already applied. *)
Record dialect := Dialect { di_comma : ascii; di_comment : option ascii; di_lazy : bool; di_trim : bool }.
Record wdialect := WDialect { wd_comma : ascii; wd_crlf : bool }.

(** unicode.IsSpace of the first character of a text: its length in bytes, or 0. *)
Definition code (c : ascii) : nat := nat_of_ascii c.
Definition space_len (s : string) : nat :=
  match s with
  | "" => 0
  | String a r =>
      if decide (9 <= code a <= 13 \/ code a = 32) then 1 else
      match r with
      | "" => 0
      | String b r =>
          if decide (code a = 194 /\ (code b = 133 \/ code b = 160)) then 2 else
          match r with
          | "" => 0
          | String c _ =>
              if decide ((code a = 225 /\ code b = 154 /\ code c = 128) \/
                         (code a = 226 /\ code b = 128 /\ (128 <= code c <= 138 \/ code c = 168 \/ code c = 169 \/ code c = 175)) \/
                         (code a = 226 /\ code b = 129 /\ code c = 159) \/
                         (code a = 227 /\ code b = 128 /\ code c = 128)) then 3 else 0
          end
      end
  end.
Fixpoint has (c : ascii) (s : string) : bool :=
  match s with "" => false | String a s => bool_decide (a = c) || has c s end.

(** validDelim *)
Definition valid_delim (c : ascii) : bool :=
  bool_decide (c <> "000"%char /\ c <> cQuote /\ c <> cCR /\ c <> cLF /\ code c < 128).

(** ** Writer *)
(** fieldNeedsQuotes *)
Definition needs_quotes (comma : ascii) (f : string) : bool :=
  negb (bool_decide (f = "")) &&
  (bool_decide (f = "\.") || has comma f || has cQuote f || has cCR f || has cLF f || bool_decide (0 < space_len f)).
(** Write *)
Definition escape_byte (crlf : bool) (c : ascii) : string :=
  if decide (c = cQuote) then String cQuote (String cQuote "")
  else if decide (c = cCR) then if crlf then "" else String cCR ""
  else if decide (c = cLF) then if crlf then String cCR (String cLF "") else String cLF ""
  else String c "".
Fixpoint escape (crlf : bool) (f : string) : string :=
  match f with "" => "" | String c f => escape_byte crlf c +:+ escape crlf f end.
Definition field_text (w : wdialect) (f : string) : string :=
  if needs_quotes (wd_comma w) f then String cQuote (escape (wd_crlf w) f +:+ String cQuote "") else f.
Fixpoint fields_text (w : wdialect) (fs : list string) : string :=
  match fs with
  | [] => ""
  | [f] => field_text w f
  | f :: fs => field_text w f +:+ String (wd_comma w) (fields_text w fs)
  end.
Definition end_of_line (w : wdialect) : string := if wd_crlf w then String cCR (String cLF "") else String cLF "".
Definition record_text (w : wdialect) (r : list string) : string := fields_text w r +:+ end_of_line w.
(** The text of all records; [None]: the error errInvalidDelim. *)
Fixpoint records_text (w : wdialect) (recs : list (list string)) : string :=
  match recs with [] => "" | r :: recs => record_text w r +:+ records_text w recs end.
Definition csv_text (w : wdialect) (recs : list (list string)) : option string :=
  if valid_delim (wd_comma w) then Some (records_text w recs) else None.

(** ** Reader *)
(** readLine: CR LF becomes LF, and a CR at the end of the file is dropped. *)
Fixpoint norm_lines (s : string) : string :=
  match s with
  | "" => ""
  | String c r =>
      if decide (c = cCR) then
        match r with
        | "" => ""
        | String d _ => if decide (d = cLF) then norm_lines r else String c (norm_lines r)
        end
      else String c (norm_lines r)
  end.
(** Where readRecord is: before a record, in a comment, at the start of a field
    (with a number of bytes to be skipped), in a field without quotes, in a
    quoted field, after a quote in a quoted field. *)
Inductive rstate :=
| RStart
| RComment
| RField (fs : list string) (skip : nat)
| RPlain (fs : list string) (b : string)
| RQuoted (fs : list string) (b : string)
| RQuote (fs : list string) (b : string).
Inductive action := Goto (st : rstate) | Emit (r : list string) | Fail.
Definition push (b : string) (c : ascii) : string := b +:+ String c "".
(** The start of a field, [s] being the rest of the text with its first byte [c]. *)
Definition at_field (d : dialect) (fs : list string) (s : string) (c : ascii) : action :=
  if decide (c = cLF) then Emit (fs ++ [""])
  else if di_trim d && bool_decide (0 < space_len s) then Goto (RField fs (space_len s - 1))
  else if decide (c = cQuote) then Goto (RQuoted fs "")
  else if decide (c = di_comma d) then Goto (RField (fs ++ [""]) 0)
  else Goto (RPlain fs (String c "")).
Definition react (d : dialect) (st : rstate) (s : string) (c : ascii) : action :=
  match st with
  | RStart =>
      if decide (Some c = di_comment d) then Goto RComment
      else if decide (c = cLF) then Goto RStart
      else at_field d [] s c
  | RComment => if decide (c = cLF) then Goto RStart else Goto RComment
  | RField fs (S k) => Goto (RField fs k)
  | RField fs 0 => at_field d fs s c
  | RPlain fs b =>
      if decide (c = di_comma d) then Goto (RField (fs ++ [b]) 0)
      else if decide (c = cLF) then Emit (fs ++ [b])
      else if decide (c = cQuote) then if di_lazy d then Goto (RPlain fs (push b c)) else Fail
      else Goto (RPlain fs (push b c))
  | RQuoted fs b =>
      if decide (c = cQuote) then Goto (RQuote fs b) else Goto (RQuoted fs (push b c))
  | RQuote fs b =>
      if decide (c = cQuote) then Goto (RQuoted fs (push b cQuote))
      else if decide (c = di_comma d) then Goto (RField (fs ++ [b]) 0)
      else if decide (c = cLF) then Emit (fs ++ [b])
      else if di_lazy d then Goto (RQuoted fs (push (push b cQuote) c)) else Fail
  end.
Definition at_end (d : dialect) (st : rstate) : option (list (list string)) :=
  match st with
  | RStart | RComment => Some []
  | RField fs _ => Some [fs ++ [""]]
  | RPlain fs b | RQuote fs b => Some [fs ++ [b]]
  | RQuoted fs b => if di_lazy d then Some [fs ++ [b]] else None
  end.
Fixpoint run_reader (d : dialect) (st : rstate) (s : string) : option (list (list string)) :=
  match s with
  | "" => at_end d st
  | String c r =>
      match react d st s c with
      | Goto st => run_reader d st r
      | Emit rec => l ← run_reader d RStart r; Some (rec :: l)
      | Fail => None
      end
  end.
(** FieldsPerRecord is 0: all records must be as long as the first one. *)
Definition same_width (recs : list (list string)) : option (list (list string)) :=
  match recs with
  | [] => Some []
  | r :: _ => if forallb (fun r' => bool_decide (length r' = length r)) recs then Some recs else None
  end.
(** Read and ReadAll until the end of the text; [None]: an error. *)
Definition csv_records (d : dialect) (text : string) : option (list (list string)) :=
  if valid_delim (di_comma d) &&
     match di_comment d with Some k => valid_delim k && negb (bool_decide (k = di_comma d)) | None => true end
  then recs ← run_reader d RStart (norm_lines text); same_width recs
  else None.
(** FromCSV (csv_parsing.go:179-211) up to the header and the records. *)
Definition csv_open (d : dialect) (o : rspec) (text : string) : option (list string * list (list string)) :=
  csv_records d text ≫= csv_split o.
