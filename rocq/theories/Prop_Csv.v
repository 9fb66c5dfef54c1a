(** Reading and writing CSV: the property theorems C44 - C49, C70, C71. The
    specification is in Spec_Csv.v. *)
From Verif Require Import P_CsvMain.
Local Existing Instance ex_rt.
Local Existing Instance ex_crt.

(** C44 The inferred types follow the documented ladder; with any schedule of
    the workers FromCSV returns the columns of the ladder. *)
Theorem C44_inference : forall (crt : CsvRT), forall (o : rspec) (header : list string) (recs : list (list string)) (c : string),
  default_types o ->
  match native_col o header recs c with
  | Ok (k, vs) => exists l, cells_of header recs c l /\ ladder (rs_missing o) l k vs
  | Panic => forall l, ~ cells_of header recs c l
  end.
Proof. intros crt. exact C44_inference_main. Qed.
Print Assumptions C44_inference.
Theorem C44_from_csv : forall (crt : CsvRT) (rt : GoRT), forall (o : rspec) (header : list string) (recs : list (list string))
    (rnd : nat -> nat) (keys : list string) (h : heap) (q : list string) (w : Z) (m : nat) (s : pool unit),
  default_types o -> wide header recs ->
  (forall c, c ∈ keys <-> c ∈ header /\ c ∉ rs_exclude o) -> NoDup keys -> "" ∉ keys ->
  csv_queue o rnd keys = (q, w) ->
  steps false (length keys) (csv_job o header recs) m (pool_init q w h) s ->
  p_crash s = false /\
  (closed (length keys) s ->
    exists r h1, from_csv o header recs (w_log <$> p_ws s) h = Ok (r, h1) /\
    forall ord, ord ≡ₚ map_to_list (mp h1 (r_maps r)) ->
    exists d h2, to_dataframe_ord ord r h1 = Ok (d, h2) /\ wf h2 d /\ preserved h h2 /\
      t_rows (abs h2 d) = (if decide (keys = []) then 0 else length recs) /\
      t_enc (abs h2 d) = rs_enc o /\ t_cpu (abs h2 d) = max_cpu (rs_cpu o) /\
      (forall k c vs, t_cols (abs h2 d) !! (k, c) = Some vs <->
         c ∈ keys /\ exists l, cells_of header recs c l /\ ladder (rs_missing o) l k vs) /\
      (forall c, c ∈ t_strs (abs h2 d) <-> is_Some (t_cols (abs h2 d) !! (KObj, c)))).
Proof. intros crt rt. exact C44_from_csv_main. Qed.
Print Assumptions C44_from_csv.
Example C44_case : wide c44_header c44_recs /\ default_types c44_o /\
  native_col c44_o c44_header c44_recs "b" = Ok (KBool, [VBool true; VBool false]) /\
  native_col c44_o c44_header c44_recs "i" = Ok (KInt, [VInt 7; VInt (-1)]) /\
  native_col c44_o c44_header c44_recs "f" = Ok (KFloat, [VFloat f_half; VFloat (f64_of_Z 3)]) /\
  native_col c44_o c44_header c44_recs "s" = Ok (KObj, [VObj (OStr "u"); VObj ONil]).
Proof. exact C44_check_main. Qed.
(** A file with an unnamed column is never read to the end. *)
Theorem C44_empty_name_hangs : forall (crt : CsvRT) (rt : GoRT), forall (o : rspec) (header : list string) (recs : list (list string))
    (rnd : nat -> nat) (keys : list string) (h : heap) (q : list string) (w : Z) (m : nat) (s : pool unit),
  (forall c, c ∈ keys <-> c ∈ header /\ c ∉ rs_exclude o) ->
  "" ∈ header -> "" ∉ rs_exclude o ->
  csv_queue o rnd keys = (q, w) ->
  steps false (length keys) (csv_job o header recs) m (pool_init q w h) s -> ~ closed (length keys) s.
Proof. intros crt rt. exact C44_empty_name_hangs_main. Qed.
Print Assumptions C44_empty_name_hangs.

(** C45 The type of a column for all options; IntAsFloat works, the other two
    options do not do what they say. *)
Theorem C45_kinds : forall (crt : CsvRT), forall (o : rspec) (header : list string) (recs : list (list string)) (c : string) (l : list string),
  cells_of header recs c l ->
  exists k vs, native_col o header recs c = Ok (k, vs) /\ reads_as (rs_missing o) k l vs /\
    (k = KBool <-> rs_binary_float o = false /\
       (Forall (fun s => s = "0" \/ s = "1") l \/ rs_bool_float o = false /\ exists vs, reads_as (rs_missing o) KBool l vs)) /\
    (k = KInt <-> k <> KBool /\ rs_int_float o = false /\ exists vs, reads_as (rs_missing o) KInt l vs) /\
    (k = KFloat <-> k <> KBool /\ k <> KInt /\ exists vs, reads_as (rs_missing o) KFloat l vs).
Proof. intros crt. exact C45_kinds_main. Qed.
Print Assumptions C45_kinds.
Theorem C45_int_as_float : forall (crt : CsvRT), forall (o : rspec) (header : list string) (recs : list (list string)) (c : string) (l : list string),
  ints_are_floats -> rs_int_float o = true -> cells_of header recs c l ->
  (exists vs, reads_as (rs_missing o) KInt l vs) ->
  exists k vs, native_col o header recs c = Ok (k, vs) /\ (k = KFloat \/ k = KBool) /\
    (rs_binary_float o = true \/ Exists (fun s => s <> "0" /\ s <> "1") l -> rs_bool_float o = true -> k = KFloat) /\
    (rs_binary_float o = true -> k = KFloat).
Proof. intros crt. exact C45_int_as_float_main. Qed.
Print Assumptions C45_int_as_float.
Example C45_case : native_col (RSpec 0 [] [] [""] true false true None) ["c"] [["0"]; [""]; ["1"]] "c" =
  Ok (KFloat, [VFloat f64_zero; VFloat S754_nan; VFloat f64_one]).
Proof. exact C45_check_main. Qed.
Theorem C45_binary_alone : forall (crt : CsvRT), forall (o : rspec) (header : list string) (recs : list (list string)) (c : string) (l : list string),
  cells_of header recs c l -> Forall (fun s => s = "0" \/ s = "1") l ->
  exists k vs, native_col o header recs c = Ok (k, vs) /\
    (rs_binary_float o = false -> k = KBool) /\
    (rs_binary_float o = true -> rs_int_float o = false -> k = KInt).
Proof. intros crt. exact C45_binary_alone_main. Qed.
Print Assumptions C45_binary_alone.
Theorem C45_bool_words : forall (crt : CsvRT), forall (o : rspec) (header : list string) (recs : list (list string)) (c : string) (l : list string),
  cells_of header recs c l -> rs_bool_float o = true -> "true" ∈ l -> "true" ∉ rs_missing o -> parse_float "true" = None ->
  exists vs, native_col o header recs c = Ok (KObj, vs).
Proof. intros crt. exact C45_bool_words_main. Qed.
Print Assumptions C45_bool_words.
Theorem C45_binary_as_float_refuted : exists (o : rspec) (header : list string) (recs : list (list string)) (c : string) (vs : list val),
  rs_binary_float o = true /\ cells_of header recs c ["0"; "1"] /\ parse_float "0" = Some f64_zero /\
  native_col o header recs c = Ok (KInt, vs).
Proof. exact C45_binary_as_float_refuted_main. Qed.
Print Assumptions C45_binary_as_float_refuted.
Theorem C45_bool_as_float_refuted : exists (o : rspec) (header : list string) (recs : list (list string)) (vs vs' : list val),
  rs_bool_float o = true /\ cells_of header recs "c" ["0"; "1"] /\ cells_of header recs "d" ["true"; "false"] /\
  native_col o header recs "c" = Ok (KBool, vs) /\ native_col o header recs "d" = Ok (KObj, vs').
Proof. exact C45_bool_as_float_refuted_main. Qed.
Print Assumptions C45_bool_as_float_refuted.

(** C46 To1CSV writes the header and every row once, if the dataframe is no
    index view or MaintainOrder is set. *)
Theorem C46_writes_rows_partial : forall (crt : CsvRT), forall (order : nat -> gset string -> list string) (flush : nat -> bool) (o : wspec) (h : heap) (d : dframe),
  wf h d -> perm_order order -> (forall j, flush j = true) ->
  d_viewed d = false \/ ws_order o = true ->
  match to_1csv order flush o d h with
  | Ok (file, failed, h') => failed = false /\ preserved h h' /\
      exists keys rows, csv_order (abs h d) keys /\ t_records (ws_marker o) keys (abs h d) = Some rows /\
        file = (snd <$> keys) :: rows
  | Panic => unwritable (abs h d)
  end.
Proof. intros crt. exact C46_writes_rows_partial_main. Qed.
Print Assumptions C46_writes_rows_partial.
Theorem C46_failing_writer_partial : forall (crt : CsvRT), forall (order : nat -> gset string -> list string) (flush : nat -> bool) (o : wspec) (h : heap) (d : dframe) (n : nat),
  wf h d -> perm_order order -> ~ unwritable (abs h d) ->
  d_viewed d = false \/ ws_order o = true ->
  (* the first flush that fails *)
  256 * n < num_rows d -> flush n = false -> (forall i, i < n -> flush i = true) ->
  exists keys rows file h', csv_order (abs h d) keys /\ t_records (ws_marker o) keys (abs h d) = Some rows /\
    to_1csv order flush o d h = Ok (file, true, h') /\ preserved h h' /\
    file = take (if decide (n = 0) then 0 else 1 + 256 * n) ((snd <$> keys) :: rows).
Proof. intros crt. exact C46_failing_writer_partial_main. Qed.
Print Assumptions C46_failing_writer_partial.
Example C46_case :
  c46_file wo0 ex_d ex_h = [["f"; "a"; "b"; "s"]; ["true"; "5"; "0.5"; "x"]; ["false"; "3"; "0"; ""]; ["true"; "9"; "1"; "yy"]; ["false"; "1"; "1"; "x"]] /\
  c46_file (WSpec "?" 0 true) ex_v ex_vh = [["f"; "a"; "b"; "s"]; ["true"; "9"; "1"; "yy"]; ["true"; "5"; "0.5"; "x"]; ["true"; "9"; "1"; "yy"]].
Proof. exact C46_check_main. Qed.
(** Otherwise one row is written again and again. *)
Theorem C46_unordered_view : forall (crt : CsvRT), forall (order : nat -> gset string -> list string) (flush : nat -> bool) (o : wspec) (h : heap) (d : dframe)
    (file : list (list string)) (failed : bool) (h' : heap),
  wf h d -> perm_order order -> (forall j, flush j = true) -> d_viewed d = true -> ws_order o = false ->
  to_1csv order flush o d h = Ok (file, failed, h') ->
  exists keys row, csv_order (abs h d) keys /\ file = (snd <$> keys) :: replicate (num_rows d) row.
Proof. intros crt. exact C46_unordered_view_main. Qed.
Print Assumptions C46_unordered_view.
Theorem C46_rows_once_refuted : exists (o : wspec) (h : heap) (d : dframe) (h' : heap),
  wf h d /\ t_cols (abs h d) !! (KInt, "a") = Some [VInt 9; VInt 5; VInt 9] /\
  to_1csv names_order all_ok o d h = Ok ([["f"; "a"; "b"; "s"]; ["true"; "5"; "0.5"; "x"]; ["true"; "5"; "0.5"; "x"]; ["true"; "5"; "0.5"; "x"]], false, h').
Proof. exact C46_rows_once_refuted_main. Qed.
Print Assumptions C46_rows_once_refuted.
Theorem C46_no_rows : forall (crt : CsvRT), forall (order : nat -> gset string -> list string) (flush : nat -> bool) (o : wspec) (h : heap) (d : dframe),
  wf h d -> perm_order order -> num_rows d = 0 ->
  exists keys h', csv_order (abs h d) keys /\ preserved h h' /\
    to_1csv order flush o d h = Ok (if flush 0 then [snd <$> keys] else [], false, h').
Proof. intros crt. exact C46_no_rows_main. Qed.
Print Assumptions C46_no_rows.
Theorem C46_error_lost_refuted : exists (h : heap) (d : dframe) (h' : heap), wf h d /\
  to_1csv names_order (fun _ => false) wo0 d h = Ok ([], false, h').
Proof. exact C46_error_lost_refuted_main. Qed.
Print Assumptions C46_error_lost_refuted.

(** C47 ToCSVs gives every row to one writer; without rows it panics, and
    writers without rows get an empty line. *)
Theorem C47_splits_rows_partial : forall (crt : CsvRT) (rt : GoRT), forall (order : nat -> nat -> gset string -> list string) (flush : nat -> nat -> bool) (o : wspec) (h : heap) (d : dframe) (writers : nat),
  wf h d -> (forall i, perm_order (order i)) -> (forall i j, flush i j = true) ->
  d_viewed d = false \/ ws_order o = true ->
  0 < num_rows d \/ writers <= 1 ->
  match to_csvs order flush o d writers h with
  | Ok (files, failed, h') => failed = false /\ preserved h h' /\ length files = writers /\
      (0 < writers -> exists parts rest, t_concat parts (abs h d) /\
        Forall (fun f => f = [[]]) rest /\
        (* the files after the parts contain an empty line *)
        exists fs, files = fs ++ rest /\ Forall2 (fun t f => exists keys rows, csv_order t keys /\
          t_records (ws_marker o) keys t = Some rows /\ f = (snd <$> keys) :: rows) parts fs)
  | Panic => unwritable (abs h d) /\ 0 < writers
  end.
Proof. intros crt rt. exact C47_splits_rows_partial_main. Qed.
Print Assumptions C47_splits_rows_partial.
Example C47_case : c47_files 2 =
  [[["f"; "a"; "b"; "s"]; ["true"; "5"; "0.5"; "x"]; ["false"; "3"; "0"; ""]];
   [["f"; "a"; "b"; "s"]; ["true"; "9"; "1"; "yy"]; ["false"; "1"; "1"; "x"]]].
Proof. exact C47_check_main. Qed.
Theorem C47_no_rows : forall (crt : CsvRT) (rt : GoRT), forall (order : nat -> nat -> gset string -> list string) (flush : nat -> nat -> bool) (o : wspec) (h : heap) (d : dframe) (writers : nat),
  num_rows d = 0 -> 2 <= writers -> to_csvs order flush o d writers h = Panic.
Proof. intros crt rt. exact C47_no_rows_main. Qed.
Print Assumptions C47_no_rows.
Theorem C47_header_refuted : exists (h : heap) (d : dframe) (files : list (list (list string))) (h' : heap),
  wf h d /\ num_rows d = 4 /\ to_csvs (fun _ => names_order) (fun _ => all_ok) wo0 d 5 h = Ok (files, false, h') /\
  files !! 4 = Some [[]].
Proof. exact C47_header_refuted_main. Qed.
Print Assumptions C47_header_refuted.
Theorem C47_empty_refuted : exists (h : heap) (d : dframe),
  wf h d /\ num_rows d = 0 /\ to_csvs (fun _ => names_order) (fun _ => all_ok) wo0 d 2 h = Panic.
Proof. exact C47_empty_refuted_main. Qed.
Print Assumptions C47_empty_refuted.

(** C48 The files of ToCSVDir. *)
Theorem C48_paths_partial : forall (o : wspec) (rows : nat) (cpu : Z) (prefix : string),
  (1 <= cpu)%Z ->
  exists paths, csv_dir_paths o rows cpu prefix = Ok paths /\ NoDup paths /\
    1 <= length paths /\ (Z.of_nat (length paths) <= cpu)%Z /\
    length paths <= 1 + rows / Z.to_nat (if decide (ws_min_rows o <= 0)%Z then 512 else ws_min_rows o) /\
    Forall (fun p => exists s, p = prefix +:+ s +:+ ".csv") paths.
Proof. exact C48_paths_partial_main. Qed.
Print Assumptions C48_paths_partial.
Example C48_case : csv_dir_paths (WSpec "" 2 false) 20 16 "r" =
  Ok ["r00.csv"; "r01.csv"; "r02.csv"; "r03.csv"; "r04.csv"; "r05.csv"; "r06.csv"; "r07.csv"; "r08.csv"; "r09.csv"; "r10.csv"].
Proof. exact C48_check_main. Qed.
Theorem C48_empty_dataframe_refuted : exists (o : wspec) (rows : nat) (prefix : string),
  csv_dir_paths o rows 0 prefix = Ok [].
Proof. exact C48_empty_dataframe_refuted_main. Qed.
Print Assumptions C48_empty_dataframe_refuted.

(** C49 Which columns survive writing and reading. *)
Theorem C49_round_trip : forall (crt : CsvRT) (rt : GoRT), forall (order : nat -> gset string -> list string) (flush : nat -> bool) (wo : wspec) (ro : rspec)
    (h : heap) (d : dframe) (file : list (list string)) (h1 : heap) (logs : list (list string)),
  wf h d -> perm_order order -> (forall j, flush j = true) -> d_viewed d = false \/ ws_order wo = true ->
  (* the object columns are the string columns; no two columns have the same name *)
  (forall c, c ∈ t_strs (abs h d) <-> is_Some (t_cols (abs h d) !! (KObj, c))) ->
  (forall k k' c, is_Some (t_cols (abs h d) !! (k, c)) -> is_Some (t_cols (abs h d) !! (k', c)) -> k = k') ->
  (forall k vs, t_cols (abs h d) !! k = Some vs -> numbers_ok vs) ->
  default_types ro -> rs_header ro = [] -> rs_exclude ro = [] ->
  to_1csv order flush wo d h = Ok (file, false, h1) ->
  (* no record is lost by encoding/csv *)
  transport file = file ->
  exists header recs, csv_split ro (transport file) = Some (header, recs) /\
  (forall c, c ∈ header <-> exists k, is_Some (t_cols (abs h d) !! (k, c))) /\
  (concat logs ≡ₚ header ->
   exists r h2, from_csv ro header recs logs h1 = Ok (r, h2) /\
   forall ord, ord ≡ₚ map_to_list (mp h2 (r_maps r)) ->
   exists d' h3, to_dataframe_ord ord r h2 = Ok (d', h3) /\ wf h3 d' /\ preserved h h3 /\
     t_rows (abs h3 d') = t_rows (abs h d) /\
     (forall c, (exists k, is_Some (t_cols (abs h3 d') !! (k, c))) <-> exists k, is_Some (t_cols (abs h d) !! (k, c))) /\
     (forall k c vs, t_cols (abs h d) !! (k, c) = Some vs ->
        t_cols (abs h3 d') !! (k, c) = Some vs <-> survives (ws_marker wo) (rs_missing ro) k vs) /\
     (t_cols (abs h3 d') = t_cols (abs h d) /\ t_strs (abs h3 d') = t_strs (abs h d) <->
        forall k vs, t_cols (abs h d) !! k = Some vs -> survives (ws_marker wo) (rs_missing ro) k.1 vs)).
Proof. intros crt rt. exact C49_round_trip_main. Qed.
Print Assumptions C49_round_trip.
Example C49_case : transport c49_file = c49_file /\
  survives "" [""] KBool [VBool true; VBool false; VBool true; VBool false] /\
  survives "" [""] KInt [VInt 5; VInt 3; VInt 9; VInt 1] /\
  survives "" [""] KFloat [VFloat f_half; VFloat f64_zero; VFloat f64_one; VFloat f64_one] /\
  survives "" [""] KObj [VObj (OStr "x"); VObj ONil; VObj (OStr "yy"); VObj (OStr "x")].
Proof. exact C49_check_main. Qed.
Theorem C49_ints_refuted : exists vs : list val, vs = [VInt 0; VInt 1] /\
  c49_trip (c49_build KInt vs) = Some [((KBool, "c"), [VBool false; VBool true])].
Proof. exact C49_ints_refuted_main. Qed.
Print Assumptions C49_ints_refuted.
Theorem C49_floats_refuted : exists vs : list val, vs = [VFloat f64_zero; VFloat (f64_of_Z 3)] /\
  c49_trip (c49_build KFloat vs) = Some [((KInt, "c"), [VInt 0; VInt 3])].
Proof. exact C49_floats_refuted_main. Qed.
Print Assumptions C49_floats_refuted.
Theorem C49_strings_refuted : exists vs : list val, vs = [VObj (OStr "0.5"); VObj (OStr "7")] /\
  c49_trip (c49_build KObj vs) = Some [((KFloat, "c"), [VFloat f_half; VFloat (f64_of_Z 7)])].
Proof. exact C49_strings_refuted_main. Qed.
Print Assumptions C49_strings_refuted.

(** C70 MergeRawDataColumns. *)
Theorem C70_merge_columns : forall (rt : GoRT), forall (h : heap) (l : list raw),
  Forall (fun r => raw_ok h r /\ valid_str h (r_strs r)) l ->
  exists r h', merge_raw_columns l h = Ok (r, h') /\ preserved h h' /\ raw_ok h' r /\
    (* nothing is copied *)
    h_arr h' = h_arr h /\
    (forall k, mp h' (r_maps r) !! k = last_wins ((fun e => mp h (r_maps e)) <$> l) k) /\
    (forall k, raw_cols h' r !! k = last_wins (raw_cols h <$> l) k) /\
    (forall c, c ∈ ostr h' (r_strs r) <-> exists e, e ∈ l /\ c ∈ ostr h (r_strs e)) /\
    (* what is shared must not be changed in place *)
    (forall c, c ∈ oshr h' (r_shared r) <-> exists k, is_Some (raw_cols h' r !! (k, c))) /\
    (forall e, last l = Some e -> r_enc r = r_enc e /\ r_cpu r = r_cpu e).
Proof. intros rt. exact C70_merge_columns_main. Qed.
Print Assumptions C70_merge_columns.
Example C70_case : Forall (fun r => bool_decide (r_maps r < length (h_map c70_m.2)) = true) c70_m.1 /\
  raw_cols c70_r.2 c70_r.1 !! (KInt, "a") = Some [VInt 7; VInt 8] /\
  raw_cols c70_r.2 c70_r.1 !! (KObj, "s") = Some [VObj (OStr "u"); VObj ONil].
Proof. exact C70_check_main. Qed.

(** C71 FromCSVFilePattern with several files. *)
Theorem C71_pattern_partial : forall (crt : CsvRT) (rt : GoRT), forall (o : rspec) (files : list (list string * list (list string) * list (list string)))
    (tabs : list (gmap key (list val))) (h : heap),
  default_types o ->
  Forall2 (fun f tab => readable o f /\ file_table o f.1.1 f.1.2 tab) files tabs ->
  exists r h', from_csv_files o files h = Ok (r, h') /\ preserved h h' /\
    (forall k vs, raw_cols h' r !! k = Some vs <->
       (exists tab, tab ∈ tabs /\ is_Some (tab !! k)) /\ vs = concat ((fun tab => default [] (tab !! k)) <$> tabs)) /\
    forall ord, ord ≡ₚ map_to_list (mp h' (r_maps r)) ->
      (* the same columns with the same types in all files *)
      (forall tab tab', tab ∈ tabs -> tab' ∈ tabs -> dom tab = dom tab') ->
      exists d h2, to_dataframe_ord ord r h' = Ok (d, h2) /\ wf h2 d /\ preserved h h2 /\
        t_cols (abs h2 d) = raw_cols h' r /\
        (t_cols (abs h2 d) <> ∅ -> t_rows (abs h2 d) = sum_list ((fun f => length f.1.2) <$> files)) /\
        (* forgotten *)
        t_strs (abs h2 d) = ∅ /\ t_enc (abs h2 d) = None.
Proof. intros crt rt. exact C71_pattern_partial_main. Qed.
Print Assumptions C71_pattern_partial.
Theorem C71_mixed_types_refuted : exists (files : list (list string * list (list string) * list (list string))) (r : raw) (h : heap),
  Forall (readable ro0) files /\ from_csv_files ro0 files heap0 = Ok (r, h) /\ to_dataframe r h = Panic.
Proof. exact C71_mixed_types_refuted_main. Qed.
Print Assumptions C71_mixed_types_refuted.
Theorem C71_string_columns_refuted : exists (files : list (list string * list (list string) * list (list string))) (d : dframe) (h : heap),
  (let* r := from_csv_files ro0 files in to_dataframe r) heap0 = Ok (d, h) /\ wf h d /\
  t_cols (abs h d) !! (KObj, "s") = Some [VObj (OStr "x"); VObj (OStr "y"); VObj (OStr "z")] /\
  t_strs (abs h d) = ∅.
Proof. exact C71_string_columns_refuted_main. Qed.
Print Assumptions C71_string_columns_refuted.
