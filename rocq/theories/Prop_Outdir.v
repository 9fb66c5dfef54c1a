(** The files examples/linreg.go writes and reads at the end: C96. *)
From Verif Require Import M_Outdir M_Strconv.
From Verif Require Import P_Exec.
From Verif Require Import P_Cpu P_ExampleMain P_TextMain P_ProgramMain P_CsvMain Spec_Output P_OutputMain P_OutdirMain M_Outdir P_Base P_Check.
Local Open Scope nat_scope.
Local Existing Instance go_crt.

(** C96 Whatever the test set is, all rows of the files are copies of one row. *)
Theorem C96_rows : forall (rt : GoRT) (bl : blas f64_arith) (order : gset string -> list string) (ord : string -> bool -> gset Z -> list Z) (mord : gmap key slice -> list (key * slice)), forall (dl : dialect) (text : string) (cpu : Z) (exclude : list string) (clogs : list (list string)) (rnd : nat -> nat) (norm : nat -> f64) (rnds : Z -> nat -> nat) (ratio : f64) (imp sc : bool) (target : string) (prm : lr_params f64_arith)
    (h h1 h2 : heap) (w d2 : dframe) (e : f64)
    (worder : nat -> nat -> gset string -> list string) (can : string -> bool)
    (fs fs' : disk) (paths arrival : list string) (logs : list (list (list string))),
  program bl order ord mord dl text cpu exclude clogs rnd norm rnds ratio imp sc target prm h = Ok ((e, w), h1) -> wf h1 w -> (1 <= actual_max_cpu (d_raw w))%Z ->
  (forall i, perm_order (worder i)) ->
  linreg_output mord worder can dl cpu exclude w fs arrival logs h1 = Ok ((paths, fs', false, d2), h2) ->
  exists same texts k, t_rows same = t_rows (abs h1 w) /\ dom (t_cols same) = dom (t_cols (abs h1 w)) /\ t_strs same = t_strs (abs h1 w) /\
    (forall key col, t_cols same !! key = Some col -> exists v, col = replicate (t_rows (abs h1 w)) v) /\
    Forall2 (csv_file (WDialect (di_comma dl) false) "") (pieces same (length paths)) texts /\
    Forall2 (fun p s => fs' !! p = Some s) paths (texts ++ replicate k (end_of_line (WDialect (di_comma dl) false))).
Proof. intros rt bl order ord mord. exact (C96_rows_main bl order ord mord). Qed.
Print Assumptions C96_rows.
(** Without the directory outdir the program panics. *)
Theorem C96_no_directory : forall (rt : GoRT) (mord : gmap key slice -> list (key * slice)), forall (worder : nat -> nat -> gset string -> list string) (can : string -> bool) (dl : dialect) (cpu : Z) (exclude : list string)
    (h : heap) (w : dframe) (fs : disk) (arrival : list string) (logs : list (list (list string))),
  wf h w -> (1 <= actual_max_cpu (d_raw w))%Z -> (forall i, perm_order (worder i)) ->
  (forall p, in_dir "outdir" p = true -> can p = false /\ fs !! p = None) ->
  linreg_output mord worder can dl cpu exclude w fs arrival logs h = Panic.
Proof. intros rt mord. exact (C96_no_directory_main mord). Qed.
Print Assumptions C96_no_directory.
(** A run that meets the hypotheses: the test targets are 5 and 8, the file has
    one training row twice. *)
Local Existing Instance ex_rt.
Theorem C96_test_rows_refuted : exists e w h d2 h2 fs', 
  program fbl elts ord0 map_to_list plain_d wp_text 1 ["z"] [["s"; "x"; "y"]] (fun i => i / 2) (fun _ => f64_one) (fun _ _ => 0) f_half true true "y" lw_params heap0 = Ok ((e, w), h) /\
  wf h w /\ (1 <= actual_max_cpu (d_raw w))%Z /\ t_floats (abs h w) "y" = [f64_of_Z 5; f64_of_Z 8] /\
  linreg_output map_to_list (fun _ _ => elts) (fun _ => true) plain_d 1 ["z"] w ∅ ["outdir/file0.csv"] [[["s_onehot0"; "x"; "y"; "y_pred"]]] h =
    Ok ((["outdir/file0.csv"], fs', false, d2), h2) /\
  fs' !! "outdir/file0.csv" = Some wo_text /\
  t_floats (abs h2 d2) "y" = [f64_div (f64_of_Z 7) (f64_of_Z 2); f64_div (f64_of_Z 7) (f64_of_Z 2)].
Proof. exact C96_test_rows_refuted_main. Qed.
Print Assumptions C96_test_rows_refuted.
