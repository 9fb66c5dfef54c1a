(** Writing a dataframe to a directory and reading it back: C94 and C95. The
    specification is in Spec_Output.v. *)
From Verif Require Import M_Output.
From Verif Require Import P_Exec.
From Verif Require Import P_CsvMain P_TextMain Spec_Output P_OutputMain P_Base P_Check.

(** C94 ToCSVDir on bytes: the files it creates hold the pieces of the dataframe
    in order, everything else on the disk stays; it fails exactly if a file cannot
    be created or the delimiter is not allowed. *)
Theorem C94_files_partial : forall (crt : CsvRT) (rt : GoRT), forall (order : nat -> nat -> gset string -> list string) (can : string -> bool) (wd : wdialect) (o : wspec)
    (h : heap) (d : dframe) (prefix : string) (fs : disk),
  wf h d -> (forall i, perm_order (order i)) -> (1 <= actual_max_cpu (d_raw d))%Z ->
  d_viewed d = false \/ ws_order o = true ->
  exists paths, csv_dir_paths o (num_rows d) (actual_max_cpu (d_raw d)) prefix = Ok paths /\
  match to_csv_dir order can wd o d prefix fs h with
  | Ok (paths', fs', failed, h') => paths' = paths /\ preserved h h' /\
      (forall p, p ∉ paths -> fs' !! p = fs !! p) /\
      (failed = false <-> Forall (fun p => can p = true) paths /\ valid_delim (wd_comma wd) = true) /\
      (failed = false -> exists texts k,
         Forall2 (csv_file wd (ws_marker o)) (pieces (abs h d) (length paths)) texts /\
         (* the files after the pieces contain an empty line *)
         Forall2 (fun p s => fs' !! p = Some s) paths (texts ++ replicate k (end_of_line wd))) /\
      (failed = true -> forall i p, paths !! i = Some p ->
         (Forall (fun q => can q = true) (take (S i) paths) -> fs' !! p = Some "") /\
         (~ Forall (fun q => can q = true) (take (S i) paths) -> fs' !! p = fs !! p))
  | Panic => unwritable (abs h d) /\ Forall (fun p => can p = true) paths /\ valid_delim (wd_comma wd) = true
  end.
Proof. intros crt rt. exact C94_files_partial_main. Qed.
Print Assumptions C94_files_partial.
Theorem C94_pieces : forall (t : table) (n : nat), t_ok t -> 0 < n -> 
  t_concat (pieces t n) t /\ length (pieces t n) <= n /\ (n = 1 -> pieces t n = [t]) /\
  (* as many pieces as files *)
  ((n - 1) * (n - 1) < t_rows t -> length (pieces t n) = n) /\
  Forall (fun p => 0 < t_rows t -> 0 < t_rows p) (pieces t n).
Proof. exact C94_pieces_main. Qed.
Print Assumptions C94_pieces.
(** An index view without MaintainOrder: all rows are copies of one row. *)
Theorem C94_unordered_view : forall (crt : CsvRT) (rt : GoRT), forall (order : nat -> nat -> gset string -> list string) (can : string -> bool) (wd : wdialect) (o : wspec)
    (h : heap) (d : dframe) (prefix : string) (fs : disk) (paths : list string) (fs' : disk) (h' : heap),
  wf h d -> (forall i, perm_order (order i)) -> (1 <= actual_max_cpu (d_raw d))%Z ->
  d_viewed d = true -> ws_order o = false ->
  to_csv_dir order can wd o d prefix fs h = Ok (paths, fs', false, h') ->
  exists same texts k, t_rows same = t_rows (abs h d) /\ dom (t_cols same) = dom (t_cols (abs h d)) /\ t_strs same = t_strs (abs h d) /\
    (forall key col, t_cols same !! key = Some col -> exists v, col = replicate (num_rows d) v) /\
    Forall2 (csv_file wd (ws_marker o)) (pieces same (length paths)) texts /\
    Forall2 (fun p s => fs' !! p = Some s) paths (texts ++ replicate k (end_of_line wd)).
Proof. intros crt rt. exact C94_unordered_view_main. Qed.
Print Assumptions C94_unordered_view.
Section cases.
Local Existing Instance ex_rt.
Local Existing Instance ex_crt.
Example C94_case : wf ex_h ex_d /\ d_viewed ex_d = false /\ (1 <= actual_max_cpu (d_raw ex_d))%Z /\
  c94_show (c94_out 3 (fun _ => true) ex_d ex_h) = Some (["out/r0.csv"; "out/r1.csv"],
    [Some "kept"; Some ("f,a,b,s" +:+ lf +:+ "true,5,0.5,x" +:+ lf +:+ "false,3,0," +:+ lf); Some ("f,a,b,s" +:+ lf +:+ "true,9,1,yy" +:+ lf +:+ "false,1,1,x" +:+ lf)], false) /\
  (* the last file contains an empty line *)
  c94_show (c94_out 2 (fun _ => true) ex_d ex_h) = Some (["out/r0.csv"; "out/r1.csv"; "out/r2.csv"],
    [Some "kept"; Some ("f,a,b,s" +:+ lf +:+ "true,5,0.5,x" +:+ lf +:+ "false,3,0," +:+ lf); Some ("f,a,b,s" +:+ lf +:+ "true,9,1,yy" +:+ lf +:+ "false,1,1,x" +:+ lf); Some lf], false) /\
  (* the second file cannot be created; the first one is lost *)
  c94_show (c94_out 2 (fun p => bool_decide (p <> "out/r1.csv")) ex_d ex_h) =
    Some (["out/r0.csv"; "out/r1.csv"; "out/r2.csv"], [Some "kept"; Some ""; None; None], true).
Proof. exact C94_check_main. Qed.
Theorem C94_view_refuted : exists h d, wf h d /\ t_cols (abs h d) !! (KInt, "a") = Some [VInt 9; VInt 5; VInt 9] /\
  c94_show (c94_out 3 (fun _ => true) d h) = Some (["out/r0.csv"; "out/r1.csv"],
    [Some "kept"; Some ("f,a,b,s" +:+ lf +:+ "true,5,0.5,x" +:+ lf +:+ "true,5,0.5,x" +:+ lf); Some ("f,a,b,s" +:+ lf +:+ "true,5,0.5,x" +:+ lf)], false).
Proof. exact C94_view_refuted_main. Qed.
Print Assumptions C94_view_refuted.
End cases.

(** C95 Reading the directory gives back the pieces, in the order in which the
    files arrive. *)
Theorem C95_round_trip_partial : forall (crt : CsvRT) (rt : GoRT), forall (order : nat -> nat -> gset string -> list string) (can : string -> bool) (wd : wdialect) (o : wspec)
    (h : heap) (d : dframe) (dir name : string) (fs fs' : disk) (paths : list string) (h1 : heap)
    (dl : dialect) (ro : rspec) (arrival : list string) (logs : list (list (list string))),
  wf h d -> (forall i, perm_order (order i)) -> (1 <= actual_max_cpu (d_raw d))%Z ->
  d_viewed d = false \/ ws_order o = true ->
  (* the object columns are the string columns; no two columns have the same name *)
  (forall c, c ∈ t_strs (abs h d) <-> is_Some (t_cols (abs h d) !! (KObj, c))) ->
  (forall k k' c, is_Some (t_cols (abs h d) !! (k, c)) -> is_Some (t_cols (abs h d) !! (k', c)) -> k = k') ->
  (forall k vs, t_cols (abs h d) !! k = Some vs -> numbers_ok vs) ->
  kept_text (wd_crlf wd) (ws_marker o) (abs h d) ->
  wd_comma wd = di_comma dl -> usable dl -> no_blank_comma dl -> di_comment dl = None ->
  default_types ro -> rs_header ro = [] -> rs_exclude ro = [] ->
  (* written without error to a directory that has no other files *)
  no_slash name -> (forall p, is_Some (fs !! p) -> in_dir dir p = true -> p ∈ paths) ->
  to_csv_dir order can wd o d (dir +:+ "/" +:+ name) fs h = Ok (paths, fs', false, h1) ->
  (* no file without rows; every column of every file has the type of the whole column *)
  length (pieces (abs h d) (length paths)) = length paths ->
  (forall p k vs, p ∈ pieces (abs h d) (length paths) -> t_cols p !! k = Some vs -> survives (ws_marker o) (rs_missing ro) k.1 vs) ->
  arrival ≡ₚ paths -> length logs = length paths ->
  (forall l, l ∈ logs -> NoDup (concat l) /\ forall c, c ∈ concat l <-> exists k, is_Some (t_cols (abs h d) !! (k, c))) ->
  exists r h2, from_csv_dir dl ro dir fs' arrival logs h1 = Ok (DRaw r, h2) /\
  forall ord, ord ≡ₚ map_to_list (mp h2 (r_maps r)) ->
  exists d' h3 parts, to_dataframe_ord ord r h2 = Ok (d', h3) /\ wf h3 d' /\ preserved h h3 /\
    (* the pieces in the order in which the files arrive *)
    Forall2 (fun p part => exists i, paths !! i = Some p /\ pieces (abs h d) (length paths) !! i = Some part) arrival parts /\
    parts ≡ₚ pieces (abs h d) (length paths) /\
    t_rows (abs h3 d') = t_rows (abs h d) /\
    (forall k vs, t_cols (abs h3 d') !! k = Some vs <-> is_Some (t_cols (abs h d) !! k) /\ vs = glued k parts) /\
    (arrival = paths -> t_cols (abs h3 d') = t_cols (abs h d)) /\
    t_strs (abs h3 d') = (if decide (length paths = 1) then t_strs (abs h d) else ∅).
Proof. intros crt rt. exact C95_round_trip_partial_main. Qed.
Print Assumptions C95_round_trip_partial.
(** More files than pieces: reading fails. *)
Theorem C95_more_files : forall (crt : CsvRT) (rt : GoRT), forall (order : nat -> nat -> gset string -> list string) (can : string -> bool) (wd : wdialect) (o : wspec)
    (h : heap) (d : dframe) (dir name : string) (fs fs' : disk) (paths : list string) (h1 : heap)
    (dl : dialect) (ro : rspec) (arrival : list string) (logs : list (list (list string))),
  wf h d -> (forall i, perm_order (order i)) -> (1 <= actual_max_cpu (d_raw d))%Z ->
  wd_comma wd = di_comma dl -> usable dl -> no_blank_comma dl -> rs_header ro = [] ->
  no_slash name -> (forall p, is_Some (fs !! p) -> in_dir dir p = true -> p ∈ paths) ->
  to_csv_dir order can wd o d (dir +:+ "/" +:+ name) fs h = Ok (paths, fs', false, h1) ->
  length (pieces (abs h d) (length paths)) < length paths ->
  arrival ≡ₚ paths ->
  from_csv_dir dl ro dir fs' arrival logs h1 = Ok (DError, h1).
Proof. intros crt rt. exact C95_more_files_main. Qed.
Print Assumptions C95_more_files.
Section cases2.
Local Existing Instance ex_rt.
Local Existing Instance ex_crt.
Example C95_case : wf c95_h c95_d /\ d_viewed c95_d = false /\ (1 <= actual_max_cpu (d_raw c95_d))%Z /\ kept_text false "" c95_t /\
  (forall c, c ∈ t_strs c95_t <-> is_Some (t_cols c95_t !! (KObj, c))) /\ (forall k vs, t_cols c95_t !! k = Some vs -> numbers_ok vs) /\
  length (pieces c95_t 2) = 2 /\
  (forall p k vs, p ∈ pieces c95_t 2 -> t_cols p !! k = Some vs -> survives "" [""] k.1 vs) /\
  match c95_back (c95_in 3 c95_d c95_h ["out/r1.csv"; "out/r0.csv"] [[["a"; "s"]]; [["a"]; ["s"]]]) with
  | Some t => t_rows t = 4 /\ t_cols t !! (KInt, "a") = Some [VInt 9; VInt 7; VInt 5; VInt 3] /\
      t_cols t !! (KObj, "s") = Some [VObj (OStr "w"); VObj (OStr "x"); VObj (OStr "u"); VObj ONil]
  | None => False
  end.
Proof. exact C95_check_main. Qed.
Theorem C95_empty_file_refuted : exists h d, wf h d /\ d_viewed d = false /\
  length (pieces (abs h d) 3) = 2 /\
  forall arrival logs, arrival ≡ₚ ["out/r0.csv"; "out/r1.csv"; "out/r2.csv"] ->
  match c95_in 2 d h arrival logs with Ok (DError, _) => True | _ => False end.
Proof. exact C95_empty_file_refuted_main. Qed.
Print Assumptions C95_empty_file_refuted.
Theorem C95_types_refuted : exists h d, wf h d /\ d_viewed d = false /\ length (pieces (abs h d) 2) = 2 /\
  t_cols (abs h d) !! (KFloat, "b") = Some [VFloat f_half; VFloat f64_zero; VFloat f64_one; VFloat f64_one] /\
  match c95_in 3 d h ["out/r0.csv"; "out/r1.csv"] [[["f"; "a"; "b"; "s"]]; [["f"; "a"; "b"; "s"]]] with
  | Ok (DRaw r, h) => raw_cols h r !! (KFloat, "b") = Some [VFloat f_half; VFloat f64_zero] /\ raw_cols h r !! (KBool, "b") = Some [VBool true; VBool true] /\
      to_dataframe r h = Panic
  | _ => False
  end.
Proof. exact C95_types_refuted_main. Qed.
Print Assumptions C95_types_refuted.
End cases2.
