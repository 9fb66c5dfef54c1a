(** ShuffleView and SampleView are fair: the property theorem C116. *)
From Coq Require Import Factorial.
From Verif Require Import P_FairMain.
Open Scope nat_scope.

(** C116 The n! sequences of draws that rand.Shuffle can make. *)
Theorem C116_sequences : forall n, NoDup (sequences n) /\ length (sequences n) = fact n /\
  forall s, s ∈ sequences n <-> length s = n /\ forall i x, s !! i = Some x -> x <= i.
Proof. exact C116_sequences_main. Qed.
Print Assumptions C116_sequences.
(** Every order of the rows comes from exactly one of them. *)
Theorem C116_shuffle : forall (rt : GoRT) (h : heap) (d : dframe) (p : list nat), wf h d -> NoDup (inds d) -> p ≡ₚ seq 0 (num_rows d) ->
  exists s, s ∈ sequences (num_rows d) /\
    (exists v h', shuffle_view (source s) d h = Ok (v, h') /\ inds v = pick p (inds d) /\ abs h' v = t_select p (abs h d)) /\
    (forall s' v' h', s' ∈ sequences (num_rows d) -> shuffle_view (source s') d h = Ok (v', h') -> inds v' = pick p (inds d) -> s' = s).
Proof. exact C116_shuffle_main. Qed.
Print Assumptions C116_shuffle.
(** Every selection of m distinct rows, in any order, comes from exactly
    (n-m)! of them. *)
Theorem C116_sample : forall (rt : GoRT) (h : heap) (d : dframe) (q : list nat), wf h d -> NoDup (inds d) -> NoDup q -> Forall (fun i => i < num_rows d) q ->
  how_many (num_rows d) (fun s => sampled h d (length q) s = Some (pick q (inds d))) = fact (num_rows d - length q).
Proof. exact C116_sample_main. Qed.
Print Assumptions C116_sample.
Local Existing Instance ex_rt.
Example C116_case : wf ex_h ex_d /\ NoDup (inds ex_d) /\ num_rows ex_d = 4 /\ [2; 0; 3; 1] ≡ₚ seq 0 (num_rows ex_d) /\
  how_many 4 (fun s => sampled ex_h ex_d 4 s = Some [2; 0; 3; 1]) = 1 /\
  how_many 4 (fun s => sampled ex_h ex_d 2 s = Some [3; 1]) = 2 /\
  how_many 4 (fun s => sampled ex_h ex_d 2 s = Some [0; 1]) = 2 /\ length (sequences 4) = 24 /\
  sampled ex_h ex_d 4 [0; 0; 2; 1] = Some [3; 0; 2; 1].
Proof. exact C116_check_main. Qed.
