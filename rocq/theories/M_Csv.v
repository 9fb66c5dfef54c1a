(** Reading and writing CSV: /repo/dataframe/csv_parsing.go, csv_writing.go.
    The model works with the records that encoding/csv delivers or receives;
    quoting and line splitting are not modelled. strconv.ParseFloat and
    FormatFloat(x, 'f', -1, 64) are parameters. *)
From Verif Require Export M_Build M_Pool.
From stdpp Require Export pretty.
From Coq Require Import Strings.Ascii.

Class CsvRT := { parse_float : string -> option f64; fmt_float : f64 -> string }.

(** strconv.ParseBool. *)
Definition parse_bool (s : string) : option bool :=
  if decide (s ∈ ["1"; "t"; "T"; "TRUE"; "true"; "True"]) then Some true
  else if decide (s ∈ ["0"; "f"; "F"; "FALSE"; "false"; "False"]) then Some false
  else None.
(** strconv.ParseInt(s, 10, 64). *)
Definition digit (c : Ascii.ascii) : option Z :=
  let n := Z.of_N (Ascii.N_of_ascii c) in
  if decide (48 <= n <= 57)%Z then Some (n - 48)%Z else None.
Fixpoint parse_digits (acc : Z) (s : string) : option Z :=
  match s with
  | EmptyString => Some acc
  | String c s => match digit c with Some d => parse_digits (10 * acc + d) s | None => None end
  end.
Definition parse_nat (s : string) : option Z := if decide (s = "") then None else parse_digits 0 s.
Definition parse_int (s : string) : option Z :=
  let r := match s with
    | String "+"%char t => parse_nat t
    | String "-"%char t => Z.opp <$> parse_nat t
    | _ => parse_nat s
    end in
  match r with
  | Some z => if decide (- 2 ^ 63 <= z < 2 ^ 63)%Z then Some z else None
  | None => None
  end.

(** CSVReadingSpec (csv_parsing.go:15-50); the fields that configure the
    builtin reader are left out. *)
Record rspec := RSpec {
  rs_cpu : Z; rs_header : list string; rs_exclude : list string; rs_missing : list string;
  rs_int_float : bool; rs_bool_float : bool; rs_binary_float : bool; rs_enc : option nat }.

(** records[row][col] *)
Definition rcell (r : list string) (col : nat) : res string :=
  match r !! col with Some s => Ok s | None => Panic end.
(** for row := ... { if test fails { return false } } return true *)
Fixpoint all_rows (test : string -> bool) (recs : list (list string)) (col : nat) : res bool :=
  match recs with
  | [] => Ok true
  | r :: recs => let? s := rcell r col in if test s then all_rows test recs col else Ok false
  end.
Fixpoint all_rows_but (test : string -> bool) (recs : list (list string)) (missing : list bool) (col : nat) : res bool :=
  match recs, missing with
  | [], _ => Ok true
  | r :: recs, b :: missing =>
      if b then all_rows_but test recs missing col
      else let? s := rcell r col in if test s then all_rows_but test recs missing col else Ok false
  | _ :: _, [] => Panic
  end.
(** values[row] = ... for all rows. *)
Fixpoint conv_rows (f : string -> val) (recs : list (list string)) (col : nat) : res (list val) :=
  match recs with
  | [] => Ok []
  | r :: recs => let? s := rcell r col in let? l := conv_rows f recs col in Ok (f s :: l)
  end.
Fixpoint conv_rows_but (f : string -> val) (dflt : val) (recs : list (list string)) (missing : list bool) (col : nat) : res (list val) :=
  match recs, missing with
  | [], _ => Ok []
  | r :: recs, b :: missing =>
      let? v := (if b then Ok dflt else let? s := rcell r col in Ok (f s)) in
      let? l := conv_rows_but f dflt recs missing col in Ok (v :: l)
  | _ :: _, [] => Panic
  end.

Section csv.
Context {crt : CsvRT}.

(** isBinary ... toFloat (csv_parsing.go:52-129). An unsuccessful strconv call
    returns the zero value. *)
Definition is_binary (recs : list (list string)) (col : nat) : res bool :=
  all_rows (fun s => bool_decide (s = "0" \/ s = "1")) recs col.
Definition is_bool (recs : list (list string)) (col : nat) : res bool :=
  all_rows (fun s => bool_decide (is_Some (parse_bool s))) recs col.
Definition to_bool (recs : list (list string)) (col : nat) : res (list val) :=
  conv_rows (fun s => VBool (default false (parse_bool s))) recs col.
Definition is_int (recs : list (list string)) (col : nat) (missing : list bool) : res bool :=
  all_rows_but (fun s => bool_decide (is_Some (parse_int s))) recs missing col.
Definition to_int (recs : list (list string)) (col : nat) (missing : list bool) : res (list val) :=
  conv_rows_but (fun s => VInt (default 0%Z (parse_int s))) (VInt (-1)) recs missing col.
Definition is_float (recs : list (list string)) (col : nat) (missing : list bool) : res bool :=
  all_rows_but (fun s => bool_decide (is_Some (parse_float s))) recs missing col.
Definition csv_to_float (recs : list (list string)) (col : nat) (missing : list bool) : res (list val) :=
  conv_rows_but (fun s => VFloat (default f64_zero (parse_float s))) (VFloat S754_nan) recs missing col.
(** csv_parsing.go:143-146: the marks, computed only if there is a marker. *)
Fixpoint mark_missing (markers : list string) (recs : list (list string)) (col : nat) : res (list bool) :=
  match recs with
  | [] => Ok []
  | r :: recs => let? s := rcell r col in let? l := mark_missing markers recs col in Ok (bool_decide (s ∈ markers) :: l)
  end.

(** The body of the loop of toNativeTypes (csv_parsing.go:135-165): type and
    values of one column. *)
Definition native (o : rspec) (recs : list (list string)) (col : nat) : res (kind * list val) :=
  let? bin := (if rs_binary_float o then Ok false else is_binary recs col) in
  if bin : bool then let? l := to_bool recs col in Ok (KBool, l) else
  let? boo := (if rs_bool_float o || rs_binary_float o then Ok false else is_bool recs col) in
  if boo : bool then let? l := to_bool recs col in Ok (KBool, l) else
  let? missing := (if decide (rs_missing o = []) then Ok (replicate (length recs) false)
                   else mark_missing (rs_missing o) recs col) in
  let? int := (if rs_int_float o then Ok false else is_int recs col missing) in
  if int : bool then let? l := to_int recs col missing in Ok (KInt, l) else
  let? flo := is_float recs col missing in
  if flo : bool then let? l := csv_to_float recs col missing in Ok (KFloat, l) else
  let? l := conv_rows_but (fun s => VObj (OStr s)) (VObj ONil) recs missing col in Ok (KObj, l).

(** utils.IndexOfString (utils/strings.go): the first position. *)
Fixpoint index_of (c : string) (l : list string) : option nat :=
  match l with
  | [] => None
  | x :: l => if decide (x = c) then Some 0 else S <$> index_of c l
  end.
Definition native_col (o : rspec) (header : list string) (recs : list (list string)) (c : string) : res (kind * list val) :=
  match index_of c header with Some col => native o recs col | None => Panic end.

Section frame.
Context {rt : GoRT}.

(** One worker of toNativeTypes (csv_parsing.go:131-166) that has been given the
    keys [ks], with its protoframe [r]. *)
Fixpoint to_native_types (o : rspec) (header : list string) (recs : list (list string)) (r : raw) (ks : list string) : M raw :=
  match ks with
  | [] => ret r
  | c :: ks =>
      let* p := lift (native_col o header recs c) in
      let* s := lit_slice p.2 in
      put_col (r_maps r) (p.1, c) s ;;*
      let* r := (if decide (p.1 = KObj) then b_mark r c else ret r) in
      to_native_types o header recs r ks
  end.
Fixpoint protoframes (o : rspec) (header : list string) (recs : list (list string)) (logs : list (list string)) : M (list raw) :=
  match logs with
  | [] => ret []
  | ks :: logs =>
      let* r := new_raw in
      let* r := to_native_types o header recs r ks in
      let* l := protoframes o header recs logs in
      ret (r :: l)
  end.
(** FromCSV (csv_parsing.go:212-238) once the records have been read, the i-th
    worker having received the keys [logs !! i]. The workers allocate in an
    unspecified order; here one after the other. *)
Definition from_csv (o : rspec) (header : list string) (recs : list (list string)) (logs : list (list string)) : M raw :=
  let* ps := protoframes o header recs logs in
  let* r := merge_raw_columns ps in
  ret (set_max_cpu (Raw (r_maps r) (r_shared r) (r_sharedMaps r) (rs_enc o) (r_cpu r) (r_strs r)) (rs_cpu o)).
(** Header and records from the contents of the file (csv_parsing.go:195-211). *)
Definition csv_split (o : rspec) (file : list (list string)) : option (list string * list (list string)) :=
  match rs_header o with
  | [] => match file with [] => None | header :: recs => Some (header, recs) end
  | header => Some (header, file)
  end.
(** The names that are parsed, in an unspecified order (csv_parsing.go:213-216), and
    the number of workers for them (csv_parsing.go:214-219). *)
Definition csv_names (o : rspec) (header : list string) : gset string :=
  list_to_set header ∖ list_to_set (rs_exclude o).
Definition csv_queue (o : rspec) (rnd : nat -> nat) (keys : list string) : list string * Z :=
  create_queue rnd keys (max_cpu (rs_cpu o)).
(** FromCSVFilePattern (csv_parsing.go:297-316) for two or more files, in the
    order in which their results arrive: [o] has the number of CPUs per file,
    every file comes with its header, records and keys per worker. *)
Fixpoint read_files (o : rspec) (files : list (list string * list (list string) * list (list string))) : M (list raw) :=
  match files with
  | [] => ret []
  | (header, recs, logs) :: files =>
      let* r := from_csv o header recs logs in
      let* l := read_files o files in
      ret (r :: l)
  end.
Definition from_csv_files (o : rspec) (files : list (list string * list (list string) * list (list string))) : M raw :=
  let* rs := read_files o files in merge_raw_rows rs.
(** What a worker does with one name, for the pool: it may crash. *)
Definition csv_job (o : rspec) (header : list string) (recs : list (list string)) (c : string) : job unit :=
  match native_col o header recs c with Ok _ => JRet tt | Panic => JPanic end.
End frame.
End csv.
