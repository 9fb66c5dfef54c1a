(** Underscores in numbers. *)
From Coq Require Import Strings.Ascii.
From stdpp Require Import strings list.

(** The text without its underscores. *)
Fixpoint without_under (s : string) : string :=
  match s with
  | "" => ""
  | String c r => if decide (c = "_"%char) then without_under r else String c (without_under r)
  end.
(** Every underscore has a digit on its left and on its right. *)
Definition a_digit (c : ascii) : Prop := 48 <= nat_of_ascii c <= 57.
Definition separated (s : string) : Prop :=
  forall a b, s = a +:+ String "_" b -> exists a' x y b', a = a' +:+ String x "" /\ b = String y b' /\ a_digit x /\ a_digit y.
