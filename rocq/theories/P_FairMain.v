(** C116: ShuffleView and SampleView are fair. *)
From Coq Require Import Factorial.
From Verif Require Export P_ViewMain Spec_Fair.
From stdpp Require Import strings list.
From Verif Require Import P_Base P_Check.
Open Scope nat_scope.

(** ** Sequences of draws *)
Lemma elem_sequences n s : s ∈ sequences n <-> length s = n /\ forall i x, s !! i = Some x -> x <= i.
Proof.
  revert s. induction n as [|n IH]; intros s.
  - simpl. rewrite elem_of_list_singleton. split; [intros ->; by split|]. intros [H _]. by apply nil_length_inv.
  - cbn [sequences]. rewrite elem_of_list_bind. setoid_rewrite elem_of_list_fmap. split.
    + intros (s' & (x & -> & Hx) & Hs). apply IH in Hs as [Hl Hs]. apply elem_of_seq in Hx. split; [rewrite app_length; simpl; lia|].
      intros i y Hy. destruct (decide (i < length s')) as [Hi|Hi]; [rewrite lookup_app_l in Hy by done; by apply Hs|].
      rewrite lookup_app_r in Hy by lia. destruct (i - length s') as [|m] eqn:E; [|done]. simpl in Hy. injection Hy as ->. lia.
    + intros [Hl Hs]. destruct s as [|a s _] using rev_ind; [done|]. rewrite app_length in Hl. simpl in Hl. exists s. split.
      * exists a. split; [done|]. apply elem_of_seq. assert (a <= length s); [|lia]. apply Hs. by rewrite lookup_app_r, Nat.sub_diag by lia.
      * apply IH. split; [lia|]. intros i x Hx. apply Hs. by apply lookup_app_l_Some.
Qed.
Lemma NoDup_bind {A B} (f : A -> list B) (l : list A) : (forall x1 x2 y, x1 ∈ l -> x2 ∈ l -> y ∈ f x1 -> y ∈ f x2 -> x1 = x2) ->
  (forall x, x ∈ l -> NoDup (f x)) -> NoDup l -> NoDup (l ≫= f).
Proof.
  intros Hi Hf. induction 1 as [|x l Hx _ IH]; [constructor|]. rewrite bind_cons. apply NoDup_app. split; [|split].
  - apply Hf. left.
  - intros y Hy (x' & Hy' & Hx')%elem_of_list_bind. apply Hx. replace x with x'; [done|]. eapply Hi; [by right|left|done|done].
  - apply IH; [|intros; apply Hf; by right]. intros x1 x2 y H1 H2. apply Hi; by right.
Qed.
Lemma sequences_NoDup n : NoDup (sequences n).
Proof.
  induction n as [|n IH]; [apply NoDup_singleton|]. cbn [sequences]. apply NoDup_bind.
  - intros s1 s2 y _ _ (x1 & -> & _)%elem_of_list_fmap (x2 & E & _)%elem_of_list_fmap. by apply app_inj_tail in E as [-> _].
  - intros s _. apply NoDup_fmap_2; [|apply NoDup_seq]. intros x1 x2 E. by apply app_inj_tail in E as [_ ->].
  - exact IH.
Qed.
Lemma sequences_length n : length (sequences n) = fact n.
Proof.
  induction n as [|n IH]; [done|]. cbn [sequences].
  assert (HB : forall l : list (list nat), length (s ← l; (fun x => s ++ [x]) <$> seq 0 (S n)) = length l * S n).
  { induction l as [|a l IHl]; [done|]. rewrite bind_cons, app_length, IHl, fmap_length, seq_length. simpl. lia. }
  rewrite HB, IH. change (fact (S n)) with (S n * fact n). lia.
Qed.

(** ** Shuffling *)
Lemma shuffle_loop_above rnd i l j : i < j -> shuffle_loop rnd i l !! j = l !! j.
Proof.
  revert l. induction i as [|i IH]; intros l Hj; [done|]. cbn [shuffle_loop]. rewrite IH by lia. apply swap_lookup_ne; [lia|].
  pose proof (Nat.mod_upper_bound (rnd (S i)) (S (S i))). lia.
Qed.
Lemma shuffle_loop_inj r1 r2 i l : NoDup l -> i < length l -> shuffle_loop r1 i l = shuffle_loop r2 i l ->
  forall k, 1 <= k <= i -> r1 k mod S k = r2 k mod S k.
Proof.
  revert l. induction i as [|i IH]; intros l Hnd Hi E k Hk; [lia|]. cbn [shuffle_loop] in E.
  pose proof (Nat.mod_upper_bound (r1 (S i)) (S (S i))) as B1. pose proof (Nat.mod_upper_bound (r2 (S i)) (S (S i))) as B2.
  set (x1 := r1 (S i) mod S (S i)) in *. set (x2 := r2 (S i) mod S (S i)) in *.
  assert (Ex : x1 = x2).
  { destruct (lookup_lt_is_Some_2 l x1) as [a1 H1]; [lia|]. destruct (lookup_lt_is_Some_2 l x2) as [a2 H2]; [lia|].
    assert (E' : shuffle_loop r1 i (swap (S i) x1 l) !! S i = shuffle_loop r2 i (swap (S i) x2 l) !! S i) by (by rewrite E).
    rewrite !shuffle_loop_above in E' by lia. rewrite (swap_lookup_l _ _ _ _ Hi H1), (swap_lookup_l _ _ _ _ Hi H2) in E'. injection E' as ->.
    by eapply NoDup_lookup. }
  destruct (decide (k = S i)) as [->|Hne]; [done|]. rewrite Ex in E. eapply IH; [| |exact E|lia].
  - by rewrite swap_perm.
  - rewrite swap_length. lia.
Qed.
Lemma source_mod s i : (forall i x, s !! i = Some x -> x <= i) -> source s i mod S i = source s i.
Proof. intros H. apply Nat.mod_small. unfold source. destruct (s !! i) as [x|] eqn:E; simpl; [|lia]. pose proof (H _ _ E). lia. Qed.
Lemma shuffle_ext r1 r2 l : (forall k, k < length l -> r1 k = r2 k) -> shuffle r1 l = shuffle r2 l.
Proof. intros H. unfold shuffle. destruct l as [|a l]; [done|]. apply shuffle_loop_ext. intros k Hk. apply H. simpl in *. lia. Qed.
Lemma shuffle_loop_mod r i l : shuffle_loop (fun k => r k mod S k) i l = shuffle_loop r i l.
Proof. revert l. induction i as [|i IH]; intros l; [done|]. cbn [shuffle_loop]. rewrite Nat.mod_mod by lia. apply IH. Qed.
(** Every permutation comes from exactly one sequence. *)
Lemma shuffle_inj l s s' : NoDup l -> s ∈ sequences (length l) -> s' ∈ sequences (length l) ->
  shuffle (source s') l = shuffle (source s) l -> s' = s.
Proof.
  intros Hnd Hs Hs' E. set (n := length l) in *. apply elem_sequences in Hs as [Hls Hbs]. apply elem_sequences in Hs' as [Hls' Hbs'].
  apply list_eq. intros i. destruct (decide (i < n)) as [Hi|Hi]; [|rewrite !lookup_ge_None_2 by lia; done].
  destruct (lookup_lt_is_Some_2 s i) as [x Hx]; [lia|]. destruct (lookup_lt_is_Some_2 s' i) as [x' Hx']; [lia|].
  destruct i as [|i]; [pose proof (Hbs _ _ Hx); pose proof (Hbs' _ _ Hx'); rewrite Hx, Hx'; f_equal; lia|].
  pose proof (shuffle_loop_inj (source s') (source s) (n - 1) l Hnd) as HI. fold n in HI. specialize (HI ltac:(lia)).
  unfold shuffle in E. fold n in E. specialize (HI E (S i) ltac:(lia)). rewrite !source_mod in HI by done. unfold source in HI. rewrite Hx, Hx' in HI. simpl in HI. by rewrite Hx, Hx', HI.
Qed.
Lemma shuffle_surj l p : p ≡ₚ l -> exists s, s ∈ sequences (length l) /\ shuffle (source s) l = p.
Proof.
  intros Hp. destruct (shuffle_complete l p) as [r Hr]; [done|]. set (n := length l).
  set (s := (fun i => r i mod S i) <$> seq 0 n).
  assert (Hl : forall i, i < n -> s !! i = Some (r i mod S i)) by (intros i Hi; unfold s; rewrite list_lookup_fmap, lookup_seq_lt by done; done).
  exists s. split.
  - apply elem_sequences. split; [unfold s; by rewrite fmap_length, seq_length|]. intros i x Hx. pose proof (lookup_lt_Some _ _ _ Hx) as Hi. unfold s in Hi. rewrite fmap_length, seq_length in Hi.
    rewrite Hl in Hx by done. injection Hx as <-. pose proof (Nat.mod_upper_bound (r i) (S i)). lia.
  - rewrite <- Hr. unfold shuffle. rewrite <- (shuffle_loop_mod r). fold (shuffle (source s) l). fold (shuffle (fun k => r k mod S k) l).
    apply shuffle_ext. intros k Hk. unfold source. by rewrite Hl.
Qed.

(** How many sequences put [q] first. *)
Lemma prefix_count n q : NoDup q -> Forall (fun i => i < n) q ->
  how_many n (fun s => take (length q) (shuffle (source s) (seq 0 n)) = q) = fact (n - length q).
Proof.
  intros Hq Hr. set (rest := filter (fun i => i ∉ q) (seq 0 n)).
  assert (HP : q ++ rest ≡ₚ seq 0 n).
  { apply NoDup_Permutation; [|apply NoDup_seq|].
    - apply NoDup_app. split; [done|]. split; [|apply NoDup_filter, NoDup_seq]. intros x Hx Hx'. by apply elem_of_list_filter in Hx' as [? _].
    - intros x. rewrite elem_of_app. unfold rest. rewrite elem_of_list_filter. rewrite Forall_forall in Hr. split.
      + intros [H|[_ H]]; [|done]. apply elem_of_seq. specialize (Hr x H). lia.
      + intros H. destruct (decide (x ∈ q)); [by left|by right]. }
  assert (HL : length rest = n - length q) by (apply Permutation_length in HP; rewrite app_length, seq_length in HP; lia).
  assert (Hnr : NoDup rest) by apply NoDup_filter, NoDup_seq.
  unfold how_many. rewrite <- HL, <- sequences_length.
  rewrite <- (fmap_length (fun s => shuffle (source s) (seq 0 n)) (filter _ _)), <- (fmap_length (fun s => q ++ shuffle (source s) rest) (sequences _)).
  apply Permutation_length. apply NoDup_Permutation.
  - apply NoDup_fmap_2_strong; [|apply NoDup_filter, sequences_NoDup]. intros s1 s2 [_ H1]%elem_of_list_filter [_ H2]%elem_of_list_filter E.
    apply (shuffle_inj (seq 0 n)); [apply NoDup_seq|by rewrite seq_length..|done].
  - apply NoDup_fmap_2_strong; [|apply sequences_NoDup]. intros s1 s2 H1 H2 E%app_inv_head. by apply (shuffle_inj rest).
  - intros p. rewrite !elem_of_list_fmap. split.
    + intros (s & -> & [Ht Hs]%elem_of_list_filter). set (p := shuffle (source s) (seq 0 n)) in *.
      assert (Hp : p ≡ₚ seq 0 n) by apply shuffle_perm. rewrite <- (take_drop (length q) p), Ht in Hp |- *. rewrite <- HP in Hp. apply Permutation_app_inv_l in Hp.
      destruct (shuffle_surj rest _ Hp) as (s' & Hs' & E). exists s'. by rewrite E.
    + intros (s & -> & Hs). destruct (shuffle_surj (seq 0 n) (q ++ shuffle (source s) rest)) as (s' & Hs' & E).
      { rewrite <- HP. by rewrite shuffle_perm. }
      exists s'. rewrite seq_length in Hs'. split; [done|]. apply elem_of_list_filter. split; [|done]. rewrite E. by rewrite take_app.
Qed.
Lemma pick_inj (p q l : list nat) : NoDup l -> Forall (fun i => i < length l) p -> Forall (fun i => i < length l) q -> pick p l = pick q l -> p = q.
Proof.
  intros Hl Hp. revert q. induction Hp as [|x p Hx Hp IH]; intros q Hq E.
  - destruct Hq as [|y q Hy Hq]; [done|]. destruct (lookup_lt_is_Some_2 l y Hy) as [a Ha]. unfold pick in E. simpl in E. by rewrite Ha in E.
  - destruct (lookup_lt_is_Some_2 l x Hx) as [a Ha]. unfold pick in E. simpl in E. rewrite Ha in E.
    destruct Hq as [|y q Hy Hq]; [done|]. destruct (lookup_lt_is_Some_2 l y Hy) as [b Hb]. simpl in E. rewrite Hb in E. injection E as -> E.
    f_equal; [by eapply NoDup_lookup|]. by apply IH.
Qed.

Lemma ilist_mk_ind l : ilist (mk_ind l) = l.
Proof. unfold ilist, mk_ind. simpl. apply firstn_all. Qed.

(** The rows of the result of SampleView when the draws are [s]. *)
Definition sampled `{rt : GoRT} (h : heap) (d : dframe) (m : nat) (s : list nat) : option (list nat) :=
  match sample_view (source s) d (Z.of_nat m) false h with Ok (v, _) => Some (inds v) | Panic => None end.

Lemma C116_shuffle_main : forall (rt : GoRT) (h : heap) (d : dframe) (p : list nat), wf h d -> NoDup (inds d) -> p ≡ₚ seq 0 (num_rows d) ->
  exists s, s ∈ sequences (num_rows d) /\
    (exists v h', shuffle_view (source s) d h = Ok (v, h') /\ inds v = pick p (inds d) /\ abs h' v = t_select p (abs h d)) /\
    (forall s' v' h', s' ∈ sequences (num_rows d) -> shuffle_view (source s') d h = Ok (v', h') -> inds v' = pick p (inds d) -> s' = s).
Proof.
  intros rt h d p W Hnd Hp. destruct (shuffle_surj (seq 0 (num_rows d)) p Hp) as (s & Hs & E). exists s. rewrite seq_length in Hs. split; [done|]. split.
  - destruct (shuffle_view_spec (source s) h d W) as (p' & v & h' & _ & Hpe & Ev & Ha & _ & _ & _ & _ & Hi & _). rewrite E in Hpe. subst p'. exists v, h'. split; [done|]. split; [|done].
    unfold inds. rewrite Hi. apply ilist_mk_ind.
  - intros s' v' h' Hs' Ev' Hi'. destruct (shuffle_view_spec (source s') h d W) as (p' & v & h2 & Hp' & Hpe & Ev & _ & _ & _ & _ & _ & Hi & _). rewrite Ev in Ev'. injection Ev' as -> ->.
    assert (Hi2 : inds v' = pick p' (inds d)) by (unfold inds; rewrite Hi; apply ilist_mk_ind). rewrite Hi2 in Hi'.
    assert (HF : forall r, r ≡ₚ seq 0 (num_rows d) -> Forall (fun i => i < length (inds d)) r).
    { intros r Hr. apply Forall_forall. intros x Hx. rewrite Hr in Hx. apply elem_of_seq in Hx. destruct W as [n0 W]. rewrite (wfn_inds_length _ _ _ W). lia. }
    apply pick_inj in Hi'; [|done|by apply HF..]. apply (shuffle_inj (seq 0 (num_rows d))); [apply NoDup_seq|by rewrite seq_length..|]. by rewrite E, <- Hpe.
Qed.
Lemma sampled_spec `{rt : GoRT} h d m s : wf h d -> m <= num_rows d -> sampled h d m s = Some (pick (take m (shuffle (source s) (seq 0 (num_rows d)))) (inds d)).
Proof.
  intros W Hm. unfold sampled, sample_view. rewrite decide_False by lia.
  destruct (shuffle_view_spec (source s) h d W) as (p & v & h' & Hp & Hpe & Ev & Ha & Hw & _ & _ & Hvw & Hi & _).
  rewrite (bind_eq _ _ _ _ _ Ev). rewrite <- Hpe.
  assert (HF : Forall (fun i => i < length (inds d)) p).
  { destruct W as [n0 W]. apply Forall_forall. intros x Hx. rewrite Hp in Hx. apply elem_of_seq in Hx. rewrite (wfn_inds_length _ _ _ W). lia. }
  assert (Hiv : inds v = pick p (inds d)) by (unfold inds; rewrite Hi; apply ilist_mk_ind).
  assert (Hnv : num_rows v = num_rows d).
  { apply (f_equal t_rows) in Ha. simpl in Ha. apply Permutation_length in Hp. rewrite seq_length in Hp. by rewrite <- Hp. }
  destruct Hw as [n1 Hw]. pose proof (wf_ilen _ _ _ Hw) as Hil. unfold num_rows in Hnv at 1.
  unfold ind_cut. rewrite decide_True by (unfold num_rows in *; lia).
  match goal with |- match bind (lift (Ok ?x)) _ _ with _ => _ end = _ => rewrite (bind_eq (lift (Ok x)) _ h' x h') by done end. unfold ret. f_equal.
  transitivity (take m (inds v)).
  - unfold inds, ilist. simpl. rewrite take_take. f_equal. lia.
  - rewrite Hiv. clear -HF. revert m. induction HF as [|x p Hx HF IH]; intros m; [by destruct m|].
    destruct (lookup_lt_is_Some_2 _ _ Hx) as [a E]. destruct m as [|m]; [done|]. unfold pick in *. simpl. rewrite E. simpl. by rewrite IH.
Qed.
Lemma C116_sample_main : forall (rt : GoRT) (h : heap) (d : dframe) (q : list nat), wf h d -> NoDup (inds d) -> NoDup q -> Forall (fun i => i < num_rows d) q ->
  how_many (num_rows d) (fun s => sampled h d (length q) s = Some (pick q (inds d))) = fact (num_rows d - length q).
Proof.
  intros rt h d q W Hnd Hq Hr. rewrite <- (prefix_count (num_rows d) q Hq Hr). unfold how_many. f_equal. apply list_filter_iff. intros s.
  assert (Hm : length q <= num_rows d).
  { rewrite <- (seq_length (num_rows d) 0). apply submseteq_length, NoDup_submseteq; [done|]. intros x Hx. rewrite Forall_forall in Hr. apply elem_of_seq. specialize (Hr x Hx). lia. }
  rewrite sampled_spec by done. assert (Hl : length (inds d) = num_rows d) by (destruct W as [n0 W]; apply (wfn_inds_length _ _ _ W)).
  split; [|by intros ->]. intros [= E]. apply pick_inj in E; [done|done| |by rewrite Hl].
  rewrite Hl. apply Forall_take, Forall_forall. intros x Hx. rewrite (shuffle_perm (source s)) in Hx. apply elem_of_seq in Hx. lia.
Qed.
Lemma C116_sequences_main : forall n, NoDup (sequences n) /\ length (sequences n) = fact n /\
  forall s, s ∈ sequences n <-> length s = n /\ forall i x, s !! i = Some x -> x <= i.
Proof. intros n. split; [apply sequences_NoDup|]. split; [apply sequences_length|]. apply elem_sequences. Qed.

Section wit.
Existing Instance ex_rt.
Lemma C116_check_main : wf ex_h ex_d /\ NoDup (inds ex_d) /\ num_rows ex_d = 4 /\ [2; 0; 3; 1] ≡ₚ seq 0 (num_rows ex_d) /\
  how_many 4 (fun s => sampled ex_h ex_d 4 s = Some [2; 0; 3; 1]) = 1 /\
  how_many 4 (fun s => sampled ex_h ex_d 2 s = Some [3; 1]) = 2 /\
  how_many 4 (fun s => sampled ex_h ex_d 2 s = Some [0; 1]) = 2 /\ length (sequences 4) = 24 /\
  sampled ex_h ex_d 4 [0; 0; 2; 1] = Some [3; 0; 2; 1].
Proof.
  split; [exact ex_wf|]. split; [apply (bool_decide_unpack _); by vm_compute|]. split; [by vm_compute|].
  split; [apply (bool_decide_unpack _); by vm_compute|].
  split; [by vm_compute|]. split; [by vm_compute|]. split; [by vm_compute|]. split; by vm_compute.
Qed.
End wit.
