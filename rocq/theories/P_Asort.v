(** A sorting function that satisfies what is assumed of gonum's Argsort. *)
From Verif Require Export P_Order Spec.
From Coq Require Import Permutation.

Definition key_le (p q : nat * f64) : Prop := ~ klt (fkey q.2) (fkey p.2).
Global Instance key_le_dec p q : Decision (key_le p q).
Proof. unfold key_le, klt. apply _. Defined.
Global Instance key_le_total : Total key_le.
Proof. intros p q. unfold key_le, klt. lia. Qed.
Global Instance key_le_trans : Transitive key_le.
Proof. intros p q r. unfold key_le, klt. lia. Qed.
Definition merge_asort (l : list f64) : list nat :=
  fst <$> merge_sort key_le (zip (seq 0 (length l)) l).

Lemma pick_zip (l : list f64) (ps : list (nat * f64)) :
  (forall i x, (i, x) ∈ ps -> l !! i = Some x) -> pick (fst <$> ps) l = snd <$> ps.
Proof.
  unfold pick. induction ps as [|[i x] ps IH]; intros H; [done|].
  cbn [fmap list_fmap fst snd omap list_omap].
  rewrite (H i x) by (by left). cbn. f_equal. apply IH. intros j y Hj. apply H. by right.
Qed.

Lemma merge_asort_ok : asort_ok merge_asort.
Proof.
  intros l. unfold merge_asort.
  assert (Hp : merge_sort key_le (zip (seq 0 (length l)) l) ≡ₚ zip (seq 0 (length l)) l)
    by apply merge_sort_Permutation.
  split.
  - rewrite Hp. rewrite fst_zip; [done|]. by rewrite seq_length.
  - intros Hn.
    assert (Hin : forall i x, (i, x) ∈ merge_sort key_le (zip (seq 0 (length l)) l) -> l !! i = Some x).
    { intros i x Hi. rewrite Hp in Hi. apply elem_of_lookup_zip_with_1 in Hi as (j & a & b & E & Ha & Hb).
      injection E as -> ->. apply lookup_seq in Ha as [-> _]. done. }
    rewrite (pick_zip _ _ Hin).
    assert (Hs : StronglySorted key_le (merge_sort key_le (zip (seq 0 (length l)) l))).
    { apply Sorted_StronglySorted; [apply _|]. apply Sorted_merge_sort; apply _. }
    assert (Hf : Forall (fun p => f64_isnan p.2 = false) (merge_sort key_le (zip (seq 0 (length l)) l))).
    { apply Forall_forall. intros [i x] Hi. apply Hin in Hi. simpl.
      exact (Forall_lookup_1 _ _ _ _ Hn Hi). }
    clear Hp Hin Hn. induction Hs as [|p ps Hs IH Hp]; simpl; [constructor|].
    apply Forall_cons in Hf as [Hf1 Hf2]. constructor; [by apply IH|].
    apply Forall_fmap. rewrite Forall_forall in Hp, Hf2 |- *. intros q Hq. simpl.
    apply f64_le_key; [done|by apply Hf2|]. by apply Hp.
Qed.
