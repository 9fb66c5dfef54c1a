(** How a data UID is written, and when two of them have something in common. *)
From Coq Require Import NArith Ascii String.
From stdpp Require Import strings list.

(** Base 36: 0-9 and a-z, the most significant digit first. *)
Definition val36 (c : ascii) : option N :=
  let n := N_of_ascii c in
  if ((48 <=? n) && (n <=? 57))%N then Some (n - 48)%N
  else if ((97 <=? n) && (n <=? 122))%N then Some (n - 87)%N else None.
Fixpoint read36 (acc : N) (s : string) : option N :=
  match s with
  | "" => Some acc
  | String c s => match val36 c with Some d => read36 (acc * 36 + d) s | None => None end
  end.
(** [t] is the number [i] in base 36 without superfluous zeros. *)
Definition numeral36 (i : N) (t : string) : Prop :=
  t <> "" /\ read36 0 t = Some i /\ (forall r, t = String "0" r -> r = "").

(** |t1|t2|...| *)
Definition barred (ts : list string) : string := foldr (fun t s => String "|" (t +:+ s)) "|" ts.

Definition overlap (u u' : N) : Prop := exists i, N.testbit u i = true /\ N.testbit u' i = true.
