(** FromCSVFilePattern (csv_parsing.go:261-316) as a whole. The results of
    filepath.Glob, os.Stat and of opening and tokenising the files are
    parameters; [None] is an error. *)
From Verif Require Export M_Csv.

(** What is done with the matching names (csv_parsing.go:262-284). *)
Inductive pattern := PError | PNothing | POne (path : string) | PMany (paths : list string).
(** for _, filename := range filenames (csv_parsing.go:268-277) *)
Fixpoint regular_files (stat : string -> option bool) (names : list string) : option (list string) :=
  match names with
  | [] => Some []
  | f :: names =>
      match stat f with
      | None => None
      | Some regular => l ← regular_files stat names; Some (if regular then f :: l else l)
      end
  end.
Definition pattern_paths (glob : option (list string)) (stat : string -> option bool) : pattern :=
  match glob with
  | None => PError
  | Some names =>
      match regular_files stat names with
      | None => PError
      | Some [] => PNothing
      | Some [p] => POne p
      | Some ps => PMany ps
      end
  end.

Section files.
Context {crt : CsvRT} {rt : GoRT}.
(** FromCSVFile (csv_parsing.go:245-252) up to the header and the records (lines
    195-211 of FromCSV). *)
Definition read_split (o : rspec) (content : string -> option (list (list string))) (path : string)
    : option (list string * list (list string)) :=
  content path ≫= csv_split o.
(** processFileQueue (csv_parsing.go:311-316) for one path. The dataframe that FromCSV
    makes is represented by the header and the records; FromCSV may panic. *)
Definition file_job (o : rspec) (content : string -> option (list (list string))) (path : string)
    : job (option (list string * list (list string))) :=
  match read_split o content path with
  | None => JRet None
  | Some (header, recs) =>
      if forallb (fun c => match native_col o header recs c with Ok _ => true | Panic => false end) (elements (csv_names o header))
      then JRet (Some (header, recs)) else JPanic
  end.
(** The loop over the results and the concatenation (csv_parsing.go:300-308): [None] is
    the error; [logs] are the keys that the workers of each FromCSV got. *)
Definition pattern_result (o : rspec) (got : list (string * option (list string * list (list string))))
    (logs : list (list (list string))) : M (option raw) :=
  match mapM snd got with
  | None => ret None
  | Some files => let* r := from_csv_files o (zip files logs) in ret (Some r)
  end.
End files.
