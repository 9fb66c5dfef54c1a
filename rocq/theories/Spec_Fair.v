(** Fair shuffling: the random numbers drawn by rand.Shuffle for [n] elements
    are one in 0..i for each position i below n (position 0 needs none). All
    sequences of draws are taken to be equally likely. *)
From Coq Require Import Factorial.
From stdpp Require Import list.

Fixpoint sequences (n : nat) : list (list nat) :=
  match n with
  | 0 => [[]]
  | S n' => s ← sequences n'; (fun x => s ++ [x]) <$> seq 0 (S n')
  end.
(** The source of random numbers that returns the sequence [s]. *)
Definition source (s : list nat) (i : nat) : nat := default 0 (s !! i).
(** How many sequences of draws satisfy [P]. *)
Definition how_many (n : nat) (P : list nat -> Prop) `{forall s, Decision (P s)} : nat := length (filter P (sequences n)).
