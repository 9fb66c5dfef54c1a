(** What the assertions of the test suite accept. *)
From Coq Require Import Reals.
From Flocq Require Import Core BinarySingleNaN.
From Verif Require Import M_Asserts.
From Verif Require Import Spec_Json Spec_Strconv.

(** An assertion that passes if [P] and otherwise fails the test, returning false. *)
Definition asserts (r : bool * nat) (P : Prop) : Prop := (P -> r = (true, 0)) /\ (~ P -> r = (false, 1)).
(** Slices with the same address and length have the same elements. *)
Definition coherent {A} (s1 s2 : gslice A) : Prop :=
  match s1, s2 with GSlice p l, GSlice q k => p = q -> length l = length k -> l = k | _, _ => True end.
Definition nil_slice {A} (s : gslice A) : Prop := s = GNil.
(** Equality of slices for reflect.DeepEqual. *)
Definition equal_slices {A} (s1 s2 : gslice A) : Prop := (nil_slice s1 <-> nil_slice s2) /\ gs_list s1 = gs_list s2.
(** The interval that AssertFloatEquals accepts: 0.01 and the sums are rounded. *)
Definition near (a e : f64) : Prop :=
  finite a /\ finite e /\
    (round_even (real_of e - round_even (1 / 100)) <= real_of a <= round_even (real_of e + round_even (1 / 100)))%R \/
  ~ (finite a /\ finite e) /\ (a = S754_nan \/ e = S754_nan \/ a = e).
