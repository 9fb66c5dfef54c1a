(** Names used as formats without arguments: what should be printed. *)
From Verif Require Export Spec_Print.
From Coq Require Import Strings.Ascii.

(** All bytes of a text have a property. *)
Fixpoint each (P : ascii -> Prop) (s : string) : Prop :=
  match s with EmptyString => True | String c s => P c /\ each P s end.
Definition a_flag (c : ascii) : Prop := c ∈ ["#"; "0"; "+"; "-"; " "]%char.
Definition a_digit (c : ascii) : Prop := 48 <= nat_of_ascii c <= 57.
Definition a_number (s : string) : Prop := each a_digit s /\ String.length s <= 7.
(** Flags, width and precision between a percent sign and its verb. *)
Definition a_prefix (s : string) : Prop :=
  exists flags width prec, s = flags +:+ width +:+ prec /\ each a_flag flags /\ a_number width /\
    (prec = "" \/ exists n, prec = "." +:+ n /\ a_number n).
(** A character that ends the directive. *)
Definition a_verb (c : ascii) : Prop :=
  nat_of_ascii c < 128 /\ ~ a_flag c /\ ~ a_digit c /\ c <> "."%char /\ c <> "*"%char /\ c <> "["%char.
(** Every percent sign written twice. *)
Fixpoint doubled (s : string) : string :=
  match s with
  | EmptyString => ""
  | String c s => if decide (c = "037"%char) then String c (String c (doubled s)) else String c (doubled s)
  end.
