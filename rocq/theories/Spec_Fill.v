(** What fillBlanks adds (C103), from the state of the builder it is given. *)
From Verif Require Import M_Base.
From Verif Require Import P_Builder.
From stdpp Require Import strings list.

Definition alternate {A} (a b : A) (i : nat) : A := if Nat.even i then a else b.
(** There is no column of kind [k]. *)
Definition lacks (b : bstate) (k : kind) : Prop := forall c, bs_cols b !! (k, c) = None.
(** Every column of objects is marked as one of strings. *)
Definition all_strings (b : bstate) : Prop := forall c, is_Some (bs_cols b !! (KObj, c)) -> c ∈ bs_strs b.
(** [vs] is the column [k] that is added to a builder with [n] rows. *)
Definition added (ids : nat -> nat) (n : nat) (b : bstate) (k : key) (vs : list val) : Prop :=
  length vs = n /\
  ((k = (KObj, "SomeObjects") /\ all_strings b /\
      forall i v, vs !! i = Some v -> v = alternate (VObj (OOther (ids i))) (VObj ONil) i) \/
   (k = (KObj, "SomeStrings") /\ bs_strs b = ∅ /\
      forall i v, vs !! i = Some v -> v = VObj (OStr (alternate "one" "two" i))) \/
   (k = (KInt, "SomeInts") /\ lacks b KInt /\ forall i v, vs !! i = Some v -> v = VInt (Z.of_nat i)) \/
   (k = (KBool, "SomeBools") /\ lacks b KBool /\ forall i v, vs !! i = Some v -> v = VBool (alternate true false i)) \/
   (k = (KFloat, "SomeFloats") /\ lacks b KFloat /\
      forall i v, vs !! i = Some v -> v = VFloat (f64_div (f64_of_Z (Z.of_nat i)) (f64_of_Z (Z.of_nat n))))).

(** A builder with [n] rows in every column (none if there is no column) whose
    marks are on columns of objects. *)
Record even_rows (b : bstate) (n : nat) : Prop := {
  er_len : forall k vs, bs_cols b !! k = Some vs -> length vs = n;
  er_none : bs_cols b = ∅ -> n = 0;
  er_strs : forall c, c ∈ bs_strs b -> is_Some (bs_cols b !! (KObj, c)) }.
(** The names of the two columns of objects are not in the way. *)
Definition free_names (b : bstate) : Prop :=
  (all_strings b -> bs_cols b !! (KObj, "SomeObjects") = None) /\
  (bs_strs b = ∅ -> bs_cols b !! (KObj, "SomeStrings") = None).
