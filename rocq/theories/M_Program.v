(** The program examples/linreg.go from the text of the file to the error. *)
From Verif Require Export M_Example M_CsvText.
From Verif Require Import M_Strconv.

(** The specification for reading (examples/linreg.go:50-58). The flag -cpu is
    [cpu], and [exclude] are the arguments after the target. *)
Definition linreg_spec (cpu : Z) (exclude : list string) : rspec :=
  RSpec cpu [] exclude [""; " "; "NA"; "-"] true false true None.

Section program.
Context {rt : GoRT} (bl : blas f64_arith).
Context (order : gset string -> list string) (ord : string -> bool -> gset Z -> list Z).
(** Iteration over the columns of ToDataFrame. *)
Context (mord : gmap key slice -> list (key * slice)).
Existing Instance go_crt.
Existing Instance go_jrt.

(** Lines 50-119 of main, with the contents of the file as [text] and the names
    read by each worker of FromCSV as [logs]. FromCSV takes the comma from the
    command line, and the other settings of the reader are those of
    encoding/csv (csv_parsing.go:184-194). Debug (line 63) only sets a flag,
    and PrintSummary (line 65, see M_Summary) only prints. *)
Definition program (dl : dialect) (text : string) (cpu : Z) (exclude : list string) (logs : list (list string))
    (rnd : nat -> nat) (norm : nat -> f64) (rnds : Z -> nat -> nat)
    (ratio : f64) (imp sc : bool) (target : string) (prm : lr_params f64_arith) : M (f64 * dframe) :=
  match csv_open dl (linreg_spec cpu exclude) text with
  | None => panic
  | Some (header, recs) =>
      let* r := from_csv (linreg_spec cpu exclude) header recs logs in
      let* m := get_mp (r_maps r) in
      let* d := to_dataframe_ord (mord m) r in
      example bl order ord rnd norm rnds ratio imp sc target prm d
  end.
End program.
