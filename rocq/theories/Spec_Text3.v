(** What is read from lines whose delimiter is a blank, and from lines that look
    like comments. *)
From Verif Require Export Spec_CsvText.

(** TrimLeadingSpace takes a blank delimiter for a part of the field that
    follows: the empty fields disappear, except one at the end of the line. *)
Definition blank_back (r : list string) : list string :=
  filter (fun f => f <> "") r ++ (if decide (last r = Some "") then [""] else []).
(** A text without its first line. *)
Fixpoint after_line (s : string) : string :=
  match s with "" => "" | String c s => if decide (c = cLF) then s else after_line s end.
