(** Linear regression in exact arithmetic: epochs. *)
From Coq Require Import Reals Lra.
From Verif Require Import P_LinReg3 P_LinReg6 Spec_LinReg.
From Verif Require Export P_LinRegR3.
Local Open Scope R_scope.
Local Set Default Goal Selector "1".

(** The rows and targets at the given positions. *)
Definition part_of (rows : list (list R)) (y : list R) (q : list nat) : list (list R) * list R := (pick q rows, pick q y).
Lemma pick_app {A} q1 q2 (l : list A) : pick (q1 ++ q2) l = pick q1 l ++ pick q2 l.
Proof. unfold pick. apply omap_app. Qed.
Lemma pick_Forall {A} (P : A -> Prop) q l : Forall P l -> Forall P (pick q l).
Proof. intros HF. apply Forall_forall. intros x Hx. unfold pick in Hx. apply elem_of_list_omap in Hx as (i & _ & Hi). rewrite Forall_lookup in HF. by eapply HF. Qed.
Lemma pick_length_lt {A} q (l : list A) : Forall (fun i => (i < length l)%nat) q -> length (pick q l) = length q.
Proof.
  induction 1 as [|i q Hi HF IH]; [done|]. unfold pick in *. cbn. destruct (lookup_lt_is_Some_2 l i Hi) as [x Hx]. rewrite Hx. cbn. by rewrite IH.
Qed.
Lemma pick_seq0 {A} (l : list A) : pick (seq 0 (length l)) l = l.
Proof.
  assert (H : forall l' : list A, pick (seq (length l') (length l)) (l' ++ l) = l).
  { induction l as [|x l IH]; intros l'; [done|]. cbn [length seq]. unfold pick. cbn.
    rewrite list_lookup_middle by done. cbn. f_equal. specialize (IH (l' ++ [x])). rewrite app_length in IH. cbn in IH. rewrite Nat.add_1_r in IH.
    rewrite <- app_assoc in IH. exact IH. }
  exact (H []).
Qed.
Lemma pick_perm {A} q q' (l : list A) : q ≡ₚ q' -> pick q l ≡ₚ pick q' l.
Proof. intros HP. unfold pick. by rewrite HP. Qed.
Lemma sum_squares_app a b : sum_squares (a ++ b) = sum_squares a + sum_squares b.
Proof. induction a as [|x a IH]; cbn; [lra|]. rewrite IH. lra. Qed.
Lemma sum_squares_perm a b : a ≡ₚ b -> sum_squares a = sum_squares b.
Proof. induction 1; cbn; lra. Qed.
Lemma sum_squares_part rows q parts : q ∈ parts -> sum_squares (pick q rows) <= sum_squares (pick (concat parts) rows).
Proof.
  induction 1 as [q parts|q q' parts Hq IH]; cbn [concat]; rewrite pick_app, sum_squares_app.
  - pose proof (sum_squares_pos (pick (concat parts) rows)). lra.
  - pose proof (sum_squares_pos (pick q' rows)). lra.
Qed.
Lemma zip_pick {A B} (l : list A) (k : list B) q : length l = length k -> zip (pick q l) (pick q k) = pick q (zip l k).
Proof.
  intros Hl. unfold pick. induction q as [|i q IH]; [done|]. cbn. rewrite lookup_zip_with.
  destruct (l !! i) as [x|] eqn:E1.
  - destruct (lookup_lt_is_Some_2 k i) as [z Hz]; [apply lookup_lt_Some in E1; lia|]. rewrite Hz. cbn. by rewrite IH.
  - cbn. assert (k !! i = None) as ->. { apply lookup_ge_None. apply lookup_ge_None in E1. lia. } exact IH.
Qed.
Lemma part_ok B n k rows y epochs q : length rows = n -> length y = n -> Forall (fun x : list R => length x = k) rows ->
  Forall (batches_of B n) epochs -> q ∈ concat epochs -> batch_ok k (part_of rows y q) /\ sum_squares (pick q rows) <= sum_squares rows.
Proof.
  intros Hr Hy HF HE Hq. apply elem_concat in Hq as (parts & Hq & Hp). rewrite Forall_forall in HE. destruct (HE _ Hp) as (HP & _).
  assert (Hlt : Forall (fun i => (i < n)%nat) q).
  { apply Forall_forall. intros i Hi. assert (Hc : i ∈ concat parts) by (apply elem_concat; by exists q). rewrite HP in Hc. apply elem_of_seq in Hc. lia. }
  split.
  - split; cbn [part_of fst snd]; [by rewrite !pick_length_lt by (by rewrite ?Hr, ?Hy)|by apply pick_Forall].
  - eapply Rle_trans; [by apply sum_squares_part|]. right. etrans; [apply sum_squares_perm, pick_perm, HP|]. rewrite <- Hr at 1. by rewrite pick_seq0.
Qed.
(** Batches at least as large as the data. *)
Lemma full_batch B n parts : (0 < n)%nat -> (n <= B)%nat -> batches_of B n parts -> exists q, parts = [q] /\ q ≡ₚ seq 0 n.
Proof.
  intros Hn HB (HP & H1 & H2). destruct parts as [|q [|q2 parts]].
  - cbn in HP. apply Permutation_nil_l in HP. destruct n; [lia|done].
  - exists q. split; [done|]. cbn in HP. by rewrite app_nil_r in HP.
  - exfalso. specialize (H1 0%nat q eq_refl ltac:(cbn; lia)). apply Permutation_length in HP. rewrite seq_length in HP. cbn [concat] in HP. rewrite !app_length in HP.
    destruct (last (q :: q2 :: parts)) as [z|] eqn:EL; [|by apply last_None in EL]. specialize (H2 z eq_refl). rewrite last_cons in EL.
    destruct (last (q2 :: parts)) as [z'|] eqn:EL2; [|by apply last_None in EL2]. injection EL as ->.
    assert (Hz : z ∈ q2 :: parts) by (by apply last_Some_elem_of in EL2).
    assert (Hz2 : (length z <= length q2 + length (concat parts))%nat).
    { apply elem_of_cons in Hz as [->|Hz]; [lia|]. apply elem_of_list_split in Hz as (l1 & l2 & ->). rewrite concat_app, app_length. cbn. rewrite app_length. lia. }
    lia.
Qed.
Lemma full_epochs B n epochs : (0 < n)%nat -> (n <= B)%nat -> Forall (batches_of B n) epochs ->
  Forall (fun q => q ≡ₚ seq 0 n) (concat epochs) /\ length (concat epochs) = length epochs.
Proof.
  intros Hn HB. induction 1 as [|parts epochs Hp HF [IH1 IH2]]; [split; [constructor|done]|]. destruct (full_batch B n parts Hn HB Hp) as (q & -> & Hq).
  cbn. split; [by constructor|lia].
Qed.
