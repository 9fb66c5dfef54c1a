(** Writing CSV: /repo/dataframe/csv_writing.go. The writer of encoding/csv is
    modelled by the records it is given: quoting is left out, [transport] says
    what its reader makes of the written file. Batches are flushed with
    WriteAll; [flush j] tells whether the j-th flush of a writer succeeds. A
    failing writer keeps the records of the earlier flushes. *)
From Verif Require Export M_Csv M_Utils.
From Coq Require Import Strings.Ascii.

(** CSVWritingSpec (csv_writing.go:13-29), without the options of the builtin
    writer. *)
Record wspec := WSpec { ws_marker : string; ws_min_rows : Z; ws_order : bool }.

(** len(batch) (csv_writing.go:58) *)
Definition batch_rows : nat := 256.

Section csv.
Context {crt : CsvRT}.
(** FormatBool, Itoa, FormatFloat, and val.(string) or the missing marker
    (csv_writing.go:72, 79, 86, 94-98). *)
Definition render (marker : string) (v : val) : res string :=
  match v with
  | VBool b => Ok (if b then "true" else "false")
  | VInt z => Ok (pretty z)
  | VFloat x => Ok (fmt_float x)
  | VObj ONil => Ok marker
  | VObj (OStr s) => Ok s
  | VObj _ => Panic
  end.
(** One of the loops over df.indices[j:end] (csv_writing.go:71-73 etc.):
    batch[i][col] = ... *)
Fixpoint fill_cells (marker : string) (vs : list val) (col i : nat) (ks : list nat) (batch : list (list string)) : res (list (list string)) :=
  match ks with
  | [] => Ok batch
  | k :: ks =>
      match vs !! k, batch !! i with
      | Some v, Some row =>
          let? s := render marker v in
          if decide (col < length row) then fill_cells marker vs col (S i) ks (<[i := <[col := s]> row]> batch) else Panic
      | _, _ => Panic
      end
  end.
(** All columns, from number [col] on. *)
Fixpoint fill_cols (marker : string) (cols : list (list val)) (col : nat) (ks : list nat) (batch : list (list string)) : res (list (list string)) :=
  match cols with
  | [] => Ok batch
  | vs :: cols => let? batch := fill_cells marker vs col 0 ks batch in fill_cols marker cols (S col) ks batch
  end.
(** The loop of csv_writing.go:62-107 from row [j * 256] on: [ks] are the
    remaining entries of df.indices, [out] is what has been written and
    [pend] what is in the buffer. The first component of the result is what
    has been written in the end, the second tells if an error is returned. *)
Fixpoint write_batches (fuel : nat) (flush : nat -> bool) (marker : string) (cols : list (list val)) (j : nat) (ks : list nat)
    (batch : list (list string)) (out pend : list (list string)) : res (list (list string) * bool) :=
  match ks, fuel with
  | [], _ => Ok (if flush j then out ++ pend else out, false) (* defer writer.Flush() *)
  | _, 0 => Panic
  | _, S fuel =>
      let part := take batch_rows ks in
      let? batch := fill_cols marker cols 0 part batch in
      if flush j then
        write_batches fuel flush marker cols (S j) (drop batch_rows ks) batch (out ++ pend ++ take (length part) batch) []
      else Ok (out, true)
  end.

(** The header calls of csv_writing.go:47-50; [order i] is the iteration order
    of the i-th NameList. *)
Definition csv_keys (order : nat -> gset string -> list string) (d : dframe) : M (list key) :=
  let* b := kind_header KBool (d_raw d) in let* bl := hd_name_list (order 0) b in
  let* i := kind_header KInt (d_raw d) in let* il := hd_name_list (order 1) i in
  let* f := kind_header KFloat (d_raw d) in let* fl := hd_name_list (order 2) f in
  let* s := string_header (d_raw d) in let* sl := hd_name_list (order 3) s in
  ret (((fun c => (KBool, c)) <$> bl) ++ ((fun c => (KInt, c)) <$> il) ++
       ((fun c => (KFloat, c)) <$> fl) ++ ((fun c => (KObj, c)) <$> sl)).

(** sortIfNeeded (csv_writing.go:196-204): the fresh slice of indices is sorted
    as it is, full of zeros. *)
Definition sort_if_needed (o : wspec) (d : dframe) : dframe :=
  if d_viewed d && negb (ws_order o) then set_ind (view d) (mk_ind (replicate (num_rows d) 0)) else d.

Definition get_col (h : heap) (m : gmap key slice) (k : key) : list val := sl_vals h (default nil_slice (m !! k)).

(** To1CSV (csv_writing.go:36-109). *)
Definition to_1csv (order : nat -> gset string -> list string) (flush : nat -> bool) (o : wspec) (d : dframe) : M (list (list string) * bool) :=
  let d := sort_if_needed o d in
  let* keys := csv_keys order d in
  let* m := get_mp (r_maps (d_raw d)) in
  fun h =>
    match write_batches (num_rows d) flush (ws_marker o) (get_col h m <$> keys) 0 (inds d)
            (replicate batch_rows (replicate (length keys) "")) [] [snd <$> keys] with
    | Ok r => Ok (r, h)
    | Panic => Panic
    end.

(** ToCSVs (csv_writing.go:122-142), the writers one after the other: they only
    read the dataframe. *)
Fixpoint write_parts (order : nat -> nat -> gset string -> list string) (flush : nat -> nat -> bool) (o : wspec) (i n : nat) (dfs : list dframe) : M (list (list (list string) * bool)) :=
  match n with
  | 0 => ret []
  | S n =>
      match dfs !! i with
      | None => panic
      | Some d =>
          let* r := to_1csv (order i) (flush i) o d in
          let* l := write_parts order flush o (S i) n dfs in
          ret (r :: l)
      end
  end.
Definition to_csvs {rt : GoRT} (order : nat -> nat -> gset string -> list string) (flush : nat -> nat -> bool) (o : wspec) (d : dframe) (writers : nat) :
    M (list (list (list string)) * bool) :=
  let* dfs := split_n_view (sort_if_needed o d) (Z.of_nat writers) in
  let* l := write_parts order flush (WSpec (ws_marker o) (ws_min_rows o) true) 0 writers dfs in
  ret (l.*1, existsb snd l).
End csv.

(** fmt.Sprintf of csv_writing.go:182-190: at least [width] digits. *)
Definition zero_pad (width : nat) (s : string) : string :=
  Nat.iter (width - String.length s) (String "0"%char) s.
(** The paths of ToCSVDir (csv_writing.go:172-191): [rows] is NumRows, [cpu]
    ActualMaxCPU. *)
Definition csv_dir_paths (o : wspec) (rows : nat) (cpu : Z) (prefix : string) : res (list string) :=
  let min_rows := if decide (ws_min_rows o <= 0)%Z then 512%Z else ws_min_rows o in
  let files := (1 + Z.of_nat rows / min_rows)%Z in
  let files := if decide (cpu < files)%Z then cpu else files in
  let width := if decide (100 <= files)%Z then 3 else if decide (10 <= files)%Z then 2 else 1 in
  if decide (files < 0)%Z then Panic else
  Ok ((fun i : nat => prefix +:+ zero_pad width (pretty i) +:+ ".csv") <$> seq 0 (Z.to_nat files)).

(** What encoding/csv reads of a written file: empty lines are skipped, so a
    record without fields, or with one empty field, disappears; a carriage
    return before a line feed is dropped. *)
Fixpoint crlf (s : string) : string :=
  match s with
  | String c1 ((String c2 _) as r) =>
      if decide (c1 = "013"%char /\ c2 = "010"%char) then crlf r else String c1 (crlf r)
  | s => s
  end.
Definition transport (recs : list (list string)) : list (list string) :=
  map (map crlf) (filter (fun r => r <> [] /\ r <> [""]) recs).
