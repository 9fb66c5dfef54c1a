(** The files a pattern dir/*.csv stands for. *)
From Verif Require Import M_Output Spec_Output.

(** The files dir/*.csv and their texts. *)
Definition csv_file (fs : disk) (dir p text : string) : Prop :=
  fs !! p = Some text /\ exists name, no_slash name /\ p = dir +:+ "/" +:+ name +:+ ".csv".
(** Not a CSV file, or without a header where one is needed. *)
Definition unreadable {crt : CsvRT} (dl : dialect) (o : rspec) (text : string) : Prop :=
  csv_records dl text = None \/ (csv_records dl text = Some [] /\ rs_header o = []).
