(** The end of examples/linreg.go: the test rows with the predictions are written
    to a directory and read again. *)
From Verif Require Export M_Output M_Program.
From Verif Require Import M_Strconv.

Section outdir.
Context {rt : GoRT}.
Context (mord : gmap key slice -> list (key * slice)).
Existing Instance go_crt.

(** examples/linreg.go:121-135. [w] is testSet; the error of ToCSVDir is ignored.
    The result are the paths, the files, whether there was an error, and the
    dataframe of line 135, which the program does not use. *)
Definition linreg_output (order : nat -> nat -> gset string -> list string) (can : string -> bool) (dl : dialect) (cpu : Z) (exclude : list string)
    (w : dframe) (fs : disk) (arrival : list string) (logs : list (list (list string))) : M (list string * disk * bool * dframe) :=
  let* out := to_csv_dir order can (WDialect (di_comma dl) false) (WSpec "" 0 false) w "outdir/file" fs in
  let* newdata := from_csv_dir dl (linreg_spec cpu exclude) "outdir" out.1.2 arrival logs in
  match newdata with
  | DError | DNil => panic
  | DRaw r =>
      let* m := get_mp (r_maps r) in
      let* d := to_dataframe_ord (mord m) r in
      ret (out.1.1, out.1.2, out.2, d)
  end.
End outdir.
