(** The names and the number of the files of ToCSVDir: C101. *)
From Coq Require Import Ascii String Sorted.
From Verif Require Import P_CsvMain P_DirMain.
From stdpp Require Import strings pretty list.
From Verif Require Import Spec_Output Spec_Dir.

(** C101 Up to 1000 files: sorted by name, the files are in the order of the rows. *)
Theorem C101_sorted : forall (o : wspec) (rows : nat) (cpu : Z) (prefix : string) paths,
  csv_dir_paths o rows cpu prefix = Ok paths -> length paths <= 1000 ->
  StronglySorted byte_lt paths /\ (forall p q, p ∈ paths -> q ∈ paths -> String.length p = String.length q).
Proof. exact C101_sorted_main. Qed.
Print Assumptions C101_sorted.
(** The i-th file has the number i, counted from 0. *)
Theorem C101_names : forall (o : wspec) (rows : nat) (cpu : Z) (prefix : string) paths,
  csv_dir_paths o rows cpu prefix = Ok paths ->
  forall i p, paths !! i = Some p -> exists ds, p = prefix +:+ ds +:+ ".csv" /\ dec_value 0 ds = Some i.
Proof. exact C101_names_main. Qed.
Print Assumptions C101_names.
(** How many files there are, when there are several, and how small they get. *)
Theorem C101_number : forall (o : wspec) (rows : nat) (cpu : Z) (prefix : string), (0 <= cpu)%Z ->
  let m := if decide (ws_min_rows o <= 0)%Z then 512 else Z.to_nat (ws_min_rows o) in
  exists paths, csv_dir_paths o rows cpu prefix = Ok paths /\
    length paths = Z.to_nat cpu `min` (1 + rows / m) /\
    (1 < length paths <-> (1 < cpu)%Z /\ m <= rows) /\
    (m <= rows -> 0 < length paths -> m <= 2 * piece_size rows (length paths)).
Proof. exact C101_number_main. Qed.
Print Assumptions C101_number.
Example C101_case : csv_dir_paths (WSpec "" 2 false) 21 16 "r" =
  Ok ["r00.csv"; "r01.csv"; "r02.csv"; "r03.csv"; "r04.csv"; "r05.csv"; "r06.csv"; "r07.csv"; "r08.csv"; "r09.csv"; "r10.csv"] /\
  byte_lt "r09.csv" "r10.csv" /\ dec_value 0 "09" = Some 9 /\ piece_size 21 11 = 2.
Proof. exact C101_check_main. Qed.
(** With more than 1000 files the order is lost. *)
Theorem C101_sorted_refuted : exists (o : wspec) (rows : nat) (cpu : Z) (prefix : string) paths,
  csv_dir_paths o rows cpu prefix = Ok paths /\ length paths = 1001 /\ ~ StronglySorted byte_lt paths.
Proof. exact C101_sorted_refuted_main. Qed.
Print Assumptions C101_sorted_refuted.
(** The names given in the comment of ToCSVDir are not those of the files. *)
Theorem C101_documented_refuted : exists (o : wspec) (rows : nat) (cpu : Z) paths,
  csv_dir_paths o rows cpu "result" = Ok paths /\ length paths = 2 /\ paths <> ["result01.csv"; "result02.csv"].
Proof. exact C101_documented_refuted_main. Qed.
Print Assumptions C101_documented_refuted.
(** MinRowsPerFile is not a minimum. *)
Theorem C101_min_rows_refuted : exists (o : wspec) (rows : nat) (cpu : Z) paths, csv_dir_paths o rows cpu "r" = Ok paths /\
  (0 < ws_min_rows o)%Z /\ (ws_min_rows o < Z.of_nat rows)%Z /\ (Z.of_nat (piece_size rows (length paths)) < ws_min_rows o)%Z.
Proof. exact C101_min_rows_refuted_main. Qed.
Print Assumptions C101_min_rows_refuted.
