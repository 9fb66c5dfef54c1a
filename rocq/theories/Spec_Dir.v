(** The order of file names and the numbers in them. *)
From Coq Require Import Ascii String.
From stdpp Require Import strings list.

(** Strings compared byte by byte, as Go and sort.Strings do. *)
Fixpoint byte_ltb (s t : string) : bool :=
  match s, t with
  | _, "" => false
  | "", _ => true
  | String a s, String b t =>
      (nat_of_ascii a <? nat_of_ascii b) || (nat_of_ascii a =? nat_of_ascii b) && byte_ltb s t
  end.
Definition byte_lt (s t : string) : Prop := byte_ltb s t = true.

(** The value of a sequence of decimal digits. *)
Fixpoint dec_value (acc : nat) (s : string) : option nat :=
  match s with
  | "" => Some acc
  | String c s =>
      let n := nat_of_ascii c in
      if (48 <=? n) && (n <=? 57) then dec_value (10 * acc + (n - 48)) s else None
  end.
