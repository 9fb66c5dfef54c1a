(** Files on disk: ToCSVFiles and ToCSVDir (dataframe/csv_writing.go:144-194),
    and FromCSVFilePattern (csv_parsing.go:261-316) with the pattern dir/*.csv
    on what they wrote. *)
From Verif Require Export M_Files M_CsvText M_Print.

(** The regular files with their contents. Directories are not part of the
    model. *)
Definition disk := gmap string string.

(** os.Create of one path after the other (csv_writing.go:150-158): an existing
    file is emptied. [can] tells which paths can be created; the first one that
    cannot ends the call. *)
Fixpoint create_files (can : string -> bool) (paths : list string) (fs : disk) : disk * bool :=
  match paths with
  | [] => (fs, true)
  | p :: paths => if can p then create_files can paths (<[p := ""]> fs) else (fs, false)
  end.
(** The writers hold the text of their file; writing does not fail. *)
Definition put_files (paths texts : list string) (fs : disk) : disk := list_to_map (zip paths texts) ∪ fs.

Section write.
Context {crt : CsvRT} {rt : GoRT}.
(** ToCSVFiles (csv_writing.go:149-160): the files and whether an error is
    returned. The paths are distinct. With a bad delimiter the header cannot be
    written (lines 52-55), which every writer reports. *)
Definition to_csv_files (order : nat -> nat -> gset string -> list string) (can : string -> bool) (wd : wdialect) (o : wspec) (d : dframe)
    (paths : list string) (fs : disk) : M (disk * bool) :=
  match create_files can paths fs with
  | (fs, false) => ret (fs, true)
  | (fs, true) =>
      if valid_delim (wd_comma wd) then
        let* r := to_csvs order (fun _ _ => true) o d (length paths) in
        ret (put_files paths (records_text wd <$> r.1) fs, r.2)
      else
        let* dfs := split_n_view (sort_if_needed o d) (Z.of_nat (length paths)) in
        if decide (length paths <= length dfs) then ret (fs, bool_decide (paths <> [])) else panic
  end.
(** ToCSVDir (csv_writing.go:172-194) *)
Definition to_csv_dir (order : nat -> nat -> gset string -> list string) (can : string -> bool) (wd : wdialect) (o : wspec) (d : dframe)
    (prefix : string) (fs : disk) : M (list string * disk * bool) :=
  let* paths := lift (csv_dir_paths o (num_rows d) (actual_max_cpu (d_raw d)) prefix) in
  let* r := to_csv_files order can wd o d paths fs in
  ret (paths, r.1, r.2).
End write.

(** filepath.Glob(dir + "/*.csv"), where [dir] has no special characters: the
    names in the directory that end in ".csv", sorted. *)
Fixpoint csv_name (s : string) : bool :=
  match s with
  | "" => false
  | String c r => bool_decide (s = ".csv") || negb (bool_decide (c = "/"%char)) && csv_name r
  end.
Fixpoint strip_dir (p s : string) : option string :=
  match p, s with
  | "", _ => Some s
  | String a p, String b s => if decide (a = b) then strip_dir p s else None
  | _, _ => None
  end.
Definition in_dir (dir p : string) : bool :=
  match strip_dir (dir +:+ "/") p with Some s => csv_name s | None => false end.
Definition glob_csv (dir : string) (fs : disk) : list string :=
  sort_strings (filter (fun p => in_dir dir p = true) (elements (dom fs))).

Section read.
Context {crt : CsvRT} {rt : GoRT}.
(** Opening and tokenising a file (csv_parsing.go:245-252, 179-211). *)
Definition disk_content (dl : dialect) (fs : disk) (path : string) : option (list (list string)) := fs !! path ≫= csv_records dl.
Inductive dir_result := DError | DNil | DRaw (r : raw).
(** FromCSVFilePattern (csv_parsing.go:261-316). [arrival] are the paths in the
    order in which the workers deliver them (see C84), [logs] the names read by
    the workers of each FromCSV. *)
Definition from_csv_dir (dl : dialect) (o : rspec) (dir : string) (fs : disk) (arrival : list string) (logs : list (list (list string))) : M dir_result :=
  match pattern_paths (Some (glob_csv dir fs)) (fun _ => Some true) with
  | PError => ret DError
  | PNothing => ret DNil
  | POne p =>
      match read_split o (disk_content dl fs) p with
      | None => ret DError
      | Some (header, recs) => let* r := from_csv o header recs (concat logs) in ret (DRaw r)
      end
  | PMany _ =>
      let* r := pattern_result o ((fun p => (p, read_split o (disk_content dl fs) p)) <$> arrival) logs in
      ret (match r with Some r => DRaw r | None => DError end)
  end.
End read.
