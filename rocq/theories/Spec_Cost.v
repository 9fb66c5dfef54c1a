(** How many cells an operation allocates for columns (C108). *)
From Verif Require Import M_Frame Spec_NoCopy.
From stdpp Require Import list.

Definition costs {A} (m : M A) (h : heap) (n : nat) : Prop :=
  exists x h', m h = Ok (x, h') /\ total_cells h' = total_cells h + n.
