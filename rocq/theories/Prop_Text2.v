(** The text of CSV files, continued: C85. *)
From Verif Require Import M_CsvText Spec_CsvText P_TextMain P_CsvMain P_Text2Main P_Check.

(** C85 The last line of a file needs no line end: the records are the same
    with and without it. With LazyQuotes this holds if there are no quotes. *)
Theorem C85_last_line : forall (d : dialect) (text : string), usable d -> di_lazy d = false \/ has cQuote text = false ->
  csv_records d (text +:+ String cLF "") = csv_records d text /\
  ((forall t, text <> t +:+ String cCR "") -> csv_records d (text +:+ String cCR (String cLF "")) = csv_records d text).
Proof. exact C85_last_line_main. Qed.
Print Assumptions C85_last_line.
(** A header given as an option stands for a first line with these names: all
    the lines of the file are data. Only the widths are not compared. *)
Theorem C85_given_header : forall (w : wdialect) (d : dialect) (o : rspec) (text : string) (H header : list string) (recs : list (list string)),
  wd_comma w = di_comma d -> usable d -> no_blank_comma d ->
  H <> [] -> H <> [""] -> ~ comment_like (di_comma d) (di_comment d) H -> (forall f, f ∈ H -> field_back (wd_crlf w) f = f) ->
  csv_open d (with_header [] o) (record_text w H +:+ text) = Some (header, recs) <->
  csv_open d (with_header H o) text = Some (header, recs) /\ forall r, r ∈ recs -> length r = length H.
Proof. exact C85_given_header_main. Qed.
Print Assumptions C85_given_header.
Example C85_last_case : csv_records plain_d c85_open = Some [["1"; "x"]; ["2"; "y"]] /\ csv_records plain_d (c85_open +:+ lf) = Some [["1"; "x"]; ["2"; "y"]] /\
  csv_open plain_d (with_header ["a"; "b"] ro0) c85_open = Some (["a"; "b"], [["1"; "x"]; ["2"; "y"]]) /\
  csv_open plain_d ro0 (record_text unix ["a"; "b"] +:+ c85_open) = Some (["a"; "b"], [["1"; "x"]; ["2"; "y"]]).
Proof. exact C85_last_check_main. Qed.
Theorem C85_last_line_lazy_refuted : exists (d : dialect) (text : string), usable d /\ csv_records d (text +:+ lf) <> csv_records d text.
Proof. exact C85_last_line_lazy_refuted_main. Qed.
Print Assumptions C85_last_line_lazy_refuted.
