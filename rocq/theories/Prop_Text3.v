(** The text of CSV files, continued: C85. *)
From Verif Require Import M_CsvText Spec_CsvText P_TextMain P_CsvMain Spec_Text3 P_Text3Main P_Check.

(** C85 With a blank as the delimiter (space, tab, vertical tab, form feed) and
    TrimLeadingSpace, a record comes back without its empty fields, except that
    an empty last field is kept. *)
Theorem C85_blank_comma : forall (w : wdialect) (d : dialect) (recs : list (list string)) (text : string),
  wd_comma w = di_comma d -> usable d -> di_trim d = true -> 0 < space_len (String (di_comma d) "") ->
  (forall r, r ∈ recs -> comment_like (di_comma d) (di_comment d) r -> one_line r) ->
  csv_text w recs = Some text ->
  let back := (fun r => field_back (wd_crlf w) <$> blank_back r) <$> filter (fun r => ~ lost d r) recs in
  (one_width back -> csv_records d text = Some back) /\ (~ one_width back -> csv_records d text = None).
Proof. exact C85_blank_comma_main. Qed.
Print Assumptions C85_blank_comma.
(** A line that starts with the comment character is skipped up to the next line
    end, whatever comes after it. This includes the lines of records whose first
    field starts with this character: what they have after their first line end
    is read as if it were at the start of a line. *)
Theorem C85_comment : forall (w : wdialect) (d : dialect) (recs : list (list string)) (k : ascii) (T : string),
  wd_comma w = di_comma d -> usable d -> di_comment d = Some k ->
  (forall r, r ∈ recs -> comment_like (di_comma d) (di_comment d) r -> one_line r) ->
  csv_records d (records_text w recs +:+ String k T) = csv_records d (records_text w recs +:+ after_line T).
Proof. exact C85_comment_main. Qed.
Print Assumptions C85_comment.
Example C85_blank_comma_case : usable tab_d /\ (csv_text (WDialect tab false) c85_tabs ≫= csv_records tab_d) =
  Some [["a"; "b"]; ["x"; ""]; [" y"; ""]; ["u" +:+ String tab "v"; "z"]; ["c"; "d"]].
Proof. exact C85_blank_comma_check_main. Qed.
Example C85_comment_case : usable hash_d /\ csv_records hash_d (records_text unix [["a"; "b"]] +:+ c85_note) = Some [["a"; "b"]; ["u"; "v"]].
Proof. exact C85_comment_check_main. Qed.
