(** Reading a directory, continued: C95. *)
From Verif Require Import M_Output.
From Verif Require Import P_Exec.
From Verif Require Import P_CsvMain P_TextMain Spec_Output Spec_Output2 P_OutputMain P_Output2Main P_Base P_Check.

(** C95 Reading dir/*.csv gives nothing exactly if there is no such file, and an
    error exactly if one of them cannot be read. *)
Theorem C95_outcome : forall (crt : CsvRT) (rt : GoRT), forall (dl : dialect) (o : rspec) (dir : string) (fs : disk) (arrival : list string) (logs : list (list (list string))) (h : heap),
  (forall p, p ∈ arrival <-> exists text, csv_file fs dir p text) ->
  let good := (exists p text, csv_file fs dir p text) /\ forall p text, csv_file fs dir p text -> ~ unreadable dl o text in
  match from_csv_dir dl o dir fs arrival logs h with
  | Ok (DNil, h') => h' = h /\ forall p text, ~ csv_file fs dir p text
  | Ok (DError, h') => h' = h /\ exists p text, csv_file fs dir p text /\ unreadable dl o text
  | Ok (DRaw _, _) => good
  | Panic => good
  end.
Proof. intros crt rt. exact C95_outcome_main. Qed.
Print Assumptions C95_outcome.
Section cases.
Local Existing Instances ex_crt ex_rt.
Example C95_outcome_case : (forall p, p ∈ ["out/a.csv"] <-> exists text, csv_file d95 "out" p text) /\
  unreadable plain_d ro0 "" /\ from_csv_dir plain_d ro0 "out" d95 ["out/a.csv"] [] ex_h = Ok (DError, ex_h) /\
  from_csv_dir plain_d ro0 "elsewhere" d95 [] [] ex_h = Ok (DNil, ex_h).
Proof. exact C95_outcome_check_main. Qed.
End cases.
