(** C115: rows stay together, whatever views are made of a dataframe. *)
From Coq Require Import Reals.
From Flocq Require Raux.
From Verif Require P_Float.
From Verif Require Export P_AlgebraMain P_WriteMain.
From stdpp Require Import strings list.
From Verif Require Import Spec_Concat P_Base P_Check.
Open Scope nat_scope.

(** Every row of [t'] is a row of [t]: row [j] of [t'] has, in all columns of
    [t'], the values of row [ix !! j] of [t]. *)
Definition aligned (ix : list nat) (t t' : table) : Prop :=
  t_rows t' = length ix /\ Forall (fun i => i < t_rows t) ix /\
  forall k j v, t_cell t' k j = Some v -> exists i, ix !! j = Some i /\ t_cell t k i = Some v.

Section derived.
Context (rt : GoRT).
(** Dataframe [v], in memory [h'], was made from [d], in memory [h]. *)
Inductive derived (h : heap) (d : dframe) : heap -> dframe -> Prop :=
| dv_self : derived h d h d
| dv_later h1 h2 v : derived h d h1 v -> preserved h1 h2 -> derived h d h2 v
| dv_index h1 v l w h2 : derived h d h1 v -> index_view v l h1 = Ok (w, h2) -> derived h d h2 w
| dv_slice h1 v a b w h2 : derived h d h1 v -> (0 <= a)%Z -> (0 <= b)%Z -> (a <= Z.of_nat (num_rows v))%Z -> (b <= Z.of_nat (num_rows v))%Z ->
    slice_view v a b h1 = Ok (w, h2) -> derived h d h2 w
| dv_mask h1 v m w h2 : derived h d h1 v -> mask_view v m h1 = Ok (w, h2) -> derived h d h2 w
| dv_columns h1 v cols w h2 : derived h d h1 v -> column_view v cols h1 = Ok (w, h2) -> derived h d h2 w
| dv_shuffle h1 v rnd w h2 : derived h d h1 v -> shuffle_view rnd v h1 = Ok (w, h2) -> derived h d h2 w
| dv_sample h1 v rnd n r w h2 : derived h d h1 v -> sample_view rnd v n r h1 = Ok (w, h2) -> derived h d h2 w
| dv_sorted h1 v asort c w h2 : derived h d h1 v -> asort_ok asort -> sorted_view asort v c h1 = Ok (w, h2) -> derived h d h2 w
| dv_top h1 v asort c n asc s w h2 : derived h d h1 v -> asort_ok asort -> top_view asort v c n asc s h1 = Ok (w, h2) -> derived h d h2 w
| dv_reverse h1 v : derived h d h1 v -> derived h d h1 (reverse_view v)
| dv_reset h1 v : derived h d h1 v -> derived h d h1 (reset_index_view v)
| dv_split h1 v b vs w h2 : derived h d h1 v -> split_view v b h1 = Ok (vs, h2) -> w ∈ vs -> derived h d h2 w
| dv_split_n h1 v n vs w h2 : derived h d h1 v -> 0 < num_rows v -> split_n_view v n h1 = Ok (vs, h2) -> w ∈ vs -> derived h d h2 w
| dv_detached h1 v cols w h2 : derived h d h1 v -> detached_view v cols h1 = Ok (w, h2) -> derived h d h2 w
| dv_copy h1 v w h2 : derived h d h1 v -> copy_df v h1 = Ok (w, h2) -> derived h d h2 w
| dv_view h1 v : derived h d h1 v -> derived h d h1 (view v)
| dv_shallow h1 v w h2 : derived h d h1 v -> shallow_copy v h1 = Ok (w, h2) -> derived h d h2 w
| dv_train h1 v r w1 w2 h2 : derived h d h1 v -> (Z.of_nat (num_rows v) <= 2 ^ 53)%Z -> valid_binary 53 1024 r = true -> f64_isnan r = false ->
    split_train_test v r h1 = Ok ((w1, w2), h2) -> derived h d h2 w1
| dv_test h1 v r w1 w2 h2 : derived h d h1 v -> (Z.of_nat (num_rows v) <= 2 ^ 53)%Z -> valid_binary 53 1024 r = true -> f64_isnan r = false ->
    split_train_test v r h1 = Ok ((w1, w2), h2) -> derived h d h2 w2
| dv_concat h1 v0 vs w h2 : (forall v, v ∈ v0 :: vs -> derived h d h1 v) -> row_concat (v0 :: vs) h1 = Ok (Some w, h2) -> derived h d h2 w.
End derived.

Lemma aligned_trans ix jx t t' t'' : aligned ix t t' -> aligned jx t' t'' -> aligned (pick jx ix) t t''.
Proof.
  intros (R1 & F1 & C1) (R2 & F2 & C2). rewrite R1 in F2. split; [by rewrite pick_length|]. split; [by apply Forall_pick_rng|].
  intros k j v Hv. destruct (C2 _ _ _ Hv) as (i & Hi & Hv'). destruct (C1 _ _ _ Hv') as (i' & Hi' & ?). exists i'. split; [|done].
  rewrite pick_lookup by done. by rewrite Hi.
Qed.
Lemma aligned_refl t : t_ok t -> aligned (seq 0 (t_rows t)) t t.
Proof.
  intros Hok. split; [by rewrite seq_length|]. split; [apply Forall_forall; intros x Hx%elem_of_seq; lia|].
  intros k j v Hv. exists j. split; [|done]. unfold t_cell in Hv. destruct (t_cols t !! k) as [col|] eqn:E; [|done]. simpl in Hv.
  apply lookup_lt_Some in Hv. rewrite (proj1 (Hok _ _ E)) in Hv. rewrite lookup_seq_lt by done. done.
Qed.
(** Columns of [t'] are columns of [t]. *)
Lemma aligned_sub t t' : t_ok t -> t_rows t' = t_rows t -> (forall k col, t_cols t' !! k = Some col -> t_cols t !! k = Some col) -> aligned (seq 0 (t_rows t)) t t'.
Proof.
  intros Hok Hr Hc. destruct (aligned_refl t Hok) as (_ & F & C). split; [by rewrite seq_length|]. split; [done|].
  intros k j v Hv. apply C. unfold t_cell in *. destruct (t_cols t' !! k) as [col|] eqn:E; [|done]. by rewrite (Hc _ _ E).
Qed.
Lemma aligned_select ix t : t_ok t -> Forall (fun i => i < t_rows t) ix -> aligned ix t (t_select ix t).
Proof.
  intros Hok F. split; [done|]. split; [done|]. intros k j v. unfold t_cell. simpl. rewrite lookup_fmap. destruct (t_cols t !! k) as [col|] eqn:E; [|done]. simpl.
  rewrite pick_lookup by (by rewrite (proj1 (Hok _ _ E))). destruct (ix !! j) as [i|]; [|done]. simpl. intros Hi. by exists i.
Qed.
Lemma aligned_slice a b t : t_ok t -> a <= b -> b <= t_rows t -> aligned (seq a (b - a)) t (t_slice a b t).
Proof.
  intros Hok Hab Hb. split; [by rewrite seq_length|]. split; [apply Forall_forall; intros x Hx%elem_of_seq; lia|].
  intros k j v. unfold t_cell. simpl. rewrite lookup_fmap. destruct (t_cols t !! k) as [col|] eqn:E; [|done]. simpl. intros Hv.
  assert (j < b - a). { apply lookup_lt_Some in Hv. rewrite take_length in Hv. lia. }
  rewrite lookup_take, lookup_drop in Hv by done. exists (a + j). rewrite lookup_seq_lt by done. done.
Qed.
Lemma aligned_reverse t : t_ok t -> aligned (reverse (seq 0 (t_rows t))) t (t_reverse t).
Proof.
  intros Hok. split; [by rewrite reverse_length, seq_length|]. split; [apply Forall_reverse, Forall_forall; intros x Hx%elem_of_seq; lia|].
  intros k j v. unfold t_cell. simpl. rewrite lookup_fmap. destruct (t_cols t !! k) as [col|] eqn:E; [|done]. simpl. intros Hv.
  pose proof (lookup_lt_Some _ _ _ Hv) as Hj. rewrite reverse_length, (proj1 (Hok _ _ E)) in Hj.
  rewrite reverse_lookup in Hv by (by rewrite (proj1 (Hok _ _ E))). rewrite (proj1 (Hok _ _ E)) in Hv.
  exists (t_rows t - S j). rewrite reverse_lookup by (by rewrite seq_length). rewrite seq_length, lookup_seq_lt by lia. done.
Qed.
Lemma perm_rng p n : p ≡ₚ seq 0 n -> Forall (fun i => i < n) p.
Proof. intros Hp. rewrite Hp. apply Forall_forall. intros x Hx%elem_of_seq. lia. Qed.
Lemma concat_rows (f : table -> list val) l : Forall (fun q => length (f q) = t_rows q) l -> length (concat (f <$> l)) = sum_list (t_rows <$> l).
Proof. induction 1 as [|q l Hq _ IH]; [done|]. change (length (f q ++ concat (f <$> l)) = t_rows q + sum_list (t_rows <$> l)). by rewrite app_length, Hq, IH. Qed.
(** Parts. *)
Lemma aligned_part parts t p : t_ok t -> Forall t_ok parts -> t_concat parts t -> p ∈ parts -> exists ix, aligned ix t p.
Proof.
  intros Hok Hoks (Hr & HF & Hc) Hp. apply elem_of_list_split in Hp as (l1 & l2 & ->).
  set (off := sum_list (t_rows <$> l1)). exists (seq off (t_rows p)). split; [by rewrite seq_length|].
  rewrite fmap_app, fmap_cons, sum_list_with_app in Hr.
  simpl in Hr. fold off in Hr.
  split; [apply Forall_forall; intros x Hx%elem_of_seq; lia|].
  apply Forall_app in HF as [HF1 HF2]. apply Forall_app in Hoks as [HO1 HO2]. pose proof (Forall_inv HF2) as (Hd & _). pose proof (Forall_inv HO2) as Hop.
  intros k j v Hv. unfold t_cell in Hv. destruct (t_cols p !! k) as [cp|] eqn:E; [|done]. simpl in Hv.
  assert (Hk : k ∈ dom (t_cols t)) by (rewrite <- Hd; by apply elem_of_dom_2 in E). apply elem_of_dom in Hk as [col Ek].
  pose proof (Hc _ _ Ek) as Hcol. rewrite fmap_app, fmap_cons, E in Hcol. simpl in Hcol. rewrite concat_app in Hcol. simpl in Hcol.
  assert (Hoff : length (concat ((fun p => default [] (t_cols p !! k)) <$> l1)) = off).
  { apply concat_rows. rewrite Forall_forall in HF1. rewrite Forall_forall in HO1. apply Forall_forall. intros q Hq.
    destruct (HF1 q Hq) as (Hdq & _). assert (Hk : k ∈ dom (t_cols q)) by (rewrite Hdq; by apply elem_of_dom_2 in Ek).
    apply elem_of_dom in Hk as [cq Eq]. rewrite Eq. exact (proj1 (HO1 q Hq _ _ Eq)). }
  pose proof (lookup_lt_Some _ _ _ Hv) as Hj. rewrite (proj1 (Hop _ _ E)) in Hj.
  exists (off + j). rewrite lookup_seq_lt by done. split; [done|]. unfold t_cell. rewrite Ek. simpl. rewrite <- Hcol.
  rewrite lookup_app_r by lia. rewrite Hoff. replace (off + j - off) with j by lia. rewrite lookup_app_l by (rewrite (proj1 (Hop _ _ E)); lia). done.
Qed.
Lemma aligned_stack t ts : Forall t_ok ts -> Forall (fun p => exists ix, aligned ix t p) ts ->
  exists ix, sum_list (t_rows <$> ts) = length ix /\ Forall (fun i => i < t_rows t) ix /\
  forall k, Forall (fun p => is_Some (t_cols p !! k)) ts -> forall j v, stack_col ts k !! j = Some v -> exists i, ix !! j = Some i /\ t_cell t k i = Some v.
Proof.
  intros Hok HA. induction ts as [|p ts IH]; [exists []; split; [done|]; split; [constructor|]; by intros k _ j v|].
  destruct IH as (ix & Hl & HF & HC); [by apply Forall_inv_tail in Hok|by apply Forall_inv_tail in HA|].
  pose proof (Forall_inv HA) as (ip & Rp & Fp & Cp). pose proof (Forall_inv Hok) as Hop. exists (ip ++ ix). split; [|split; [by apply Forall_app|]].
  { change (t_rows p + sum_list (t_rows <$> ts) = length (ip ++ ix)). by rewrite app_length, Hl, Rp. }
  intros k Hk j v Hv. pose proof (Forall_inv Hk) as [cp E]. apply Forall_inv_tail in Hk. unfold stack_col in Hv. simpl in Hv. rewrite E in Hv. simpl in Hv.
  pose proof (proj1 (Hop _ _ E)) as Hlen. rewrite Rp in Hlen.
  destruct (decide (j < length ip)) as [Hj|Hj].
  - rewrite lookup_app_l in Hv by lia. destruct (Cp k j v) as (i & Hi & ?); [unfold t_cell; by rewrite E|]. exists i. split; [|done]. by rewrite lookup_app_l.
  - rewrite lookup_app_r in Hv by lia. rewrite Hlen in Hv. destruct (HC _ Hk _ _ Hv) as (i & Hi & ?). exists i. split; [|done]. rewrite lookup_app_r by lia. done.
Qed.

Section main.
Context (rt : GoRT).
Lemma derived_aligned h d h' v : wf h d -> derived rt h d h' v -> wf h' v /\ exists ix, aligned ix (abs h d) (abs h' v).
Proof.
  intros W0 HD.
  assert (HT : forall h1 u h2 w, (wf h1 u /\ exists ix, aligned ix (abs h d) (abs h1 u)) -> wf h2 w -> (t_ok (abs h1 u) -> exists jx, aligned jx (abs h1 u) (abs h2 w)) ->
    wf h2 w /\ exists ix, aligned ix (abs h d) (abs h2 w)).
  { intros h1 u h2 w (Wu & ix & HA) Ww HJ. destruct (HJ (abs_ok _ _ Wu)) as (jx & HJ'). split; [done|]. exists (pick jx ix). by eapply aligned_trans. }
  induction HD as [|h1 h2 v _ IH HP|h1 v l w h2 _ IH E|h1 v a b w h2 _ IH Ha Hb Ha' Hb' E|h1 v m w h2 _ IH E|h1 v cols w h2 _ IH E|h1 v rnd w h2 _ IH E
    |h1 v rnd n r w h2 _ IH E|h1 v asort c w h2 _ IH Hs E|h1 v asort c n asc s w h2 _ IH Hs E|h1 v _ IH|h1 v _ IH|h1 v b vs w h2 _ IH E Hw|h1 v n vs w h2 _ IH Hn E Hw
    |h1 v cols w h2 _ IH E|h1 v w h2 _ IH E|h1 v _ IH|h1 v w h2 _ IH E|h1 v r w1 w2 h2 _ IH Hn Hr1 Hr2 E|h1 v r w1 w2 h2 _ IH Hn Hr1 Hr2 E|h1 v0 vs w h2 _ IH E].
  - split; [done|]. exists (seq 0 (t_rows (abs h d))). by apply aligned_refl, abs_ok.
  - destruct IH as (W & ix & HA). destruct (HP _ W) as (W' & E). split; [done|]. exists ix. by rewrite E.
  - pose proof (C01_index_view_selects_main rt h1 v l (proj1 IH)) as H. rewrite E in H. destruct H as (R & A & W & _).
    apply (HT h1 v); [done|done|]. intros Hok. rewrite A. eexists. apply aligned_select; [done|]. by apply to_nat_rng.
  - destruct (decide (a <= b)%Z) as [Hab|Hab].
    + destruct (C02_slice_view_rows_main rt h1 v a b (proj1 IH)) as (w' & h2' & E' & A & W & _); [repeat case_decide; lia|repeat case_decide; lia|].
      rewrite E in E'. injection E' as <- <-. rewrite !decide_False in A by lia. apply (HT h1 v); [done|done|]. intros Hok. rewrite A. eexists. apply aligned_slice; [done|lia|rewrite t_rows_abs; lia].
    + destruct (C03_slice_view_reversed_partial_main rt h1 v a b (proj1 IH)) as (w' & h2' & E' & A & W & _); [repeat case_decide; lia|repeat case_decide; lia|].
      rewrite E in E'. injection E' as <- <-. rewrite !decide_False in A by lia. apply (HT h1 v); [done|done|]. intros Hok. rewrite A.
      assert (Hokr : t_ok (t_reverse (abs h1 v))).
      { intros k col. change (t_cols (t_reverse (abs h1 v))) with (reverse <$> t_cols (abs h1 v)). rewrite lookup_fmap. intros (c0 & Hc & ->)%fmap_Some. destruct (Hok _ _ Hc). rewrite reverse_length. split; [done|by apply Forall_reverse]. }
      eexists. eapply aligned_trans; [by apply aligned_reverse|]. apply aligned_slice; [done|lia|]. change (t_rows (t_reverse (abs h1 v))) with (num_rows v). lia.
  - pose proof (C04_mask_view_rows_main rt h1 v m (proj1 IH)) as H. rewrite E in H. destruct H as (R & A & W & _).
    apply (HT h1 v); [done|done|]. intros Hok. rewrite A. eexists. by apply aligned_select.
  - destruct (C05_column_view_projects_main rt h1 v cols (proj1 IH)) as (w' & h2' & E' & A & W & _). rewrite E in E'. injection E' as <- <-.
    apply (HT h1 v); [done|done|]. intros Hok. rewrite A. destruct (decide (cols = [])); [eexists; by apply aligned_refl|].
    eexists. apply aligned_sub; [done|done|]. intros k col. unfold t_project. cbn [t_cols]. intros [? _]%map_filter_lookup_Some. done.
  - destruct (C07_shuffle_view_permutes_main rt rnd h1 v (proj1 IH)) as (p & w' & h2' & Hp & E' & A & W & _). rewrite E in E'. injection E' as <- <-.
    apply (HT h1 v); [done|done|]. intros Hok. rewrite A. eexists. apply aligned_select; [done|]. by apply perm_rng.
  - pose proof (C08_sample_view_distinct_main rt rnd h1 v n r (proj1 IH)) as H. rewrite E in H. destruct H as (_ & _ & p & _ & F & _ & A & W & _).
    apply (HT h1 v); [done|done|]. intros Hok. rewrite A. eexists. by apply aligned_select.
  - pose proof (C12_sorted_view_sorts_main rt asort h1 v c (proj1 IH) Hs) as H. rewrite E in H. destruct H as (col & p & _ & Hp & A & _ & _ & W & _).
    apply (HT h1 v); [done|done|]. intros Hok. rewrite A. eexists. apply aligned_select; [done|]. by apply perm_rng.
  - pose proof (C13_top_view_extremes_main rt asort h1 v c n asc s (proj1 IH) Hs) as H. rewrite E in H. destruct H as (_ & q & rest & Hp & _ & A & _ & W & _).
    apply (HT h1 v); [done|done|]. intros Hok. rewrite A. eexists. apply aligned_select; [done|]. apply perm_rng in Hp. by apply Forall_app in Hp as [? _].
  - destruct (C06_reverse_view_flips_main h1 v (proj1 IH)) as (A & W & _). apply (HT h1 v); [done|done|]. intros Hok. rewrite A. eexists. by apply aligned_reverse.
  - destruct (C14_reset_index_view_main h1 v (proj1 IH)) as (p & Hp & A & _ & _ & W). apply (HT h1 v); [done|done|]. intros Hok. rewrite A. eexists. apply aligned_select; [done|]. by apply perm_rng.
  - pose proof (C09_split_view_batches_main rt h1 v b (proj1 IH)) as H. rewrite E in H. destruct H as (_ & HC & _ & _ & _ & HW & _). rewrite Forall_forall in HW.
    apply (HT h1 v); [done|by apply HW|]. intros Hok. apply (aligned_part (abs h2 <$> vs)); [done| |done|by apply elem_of_list_fmap_1].
    apply Forall_fmap, Forall_forall. intros x Hx. by apply abs_ok, HW.
  - pose proof (C10_split_n_view_parts_partial_main rt h1 v n (proj1 IH) (or_introl Hn)) as H. rewrite E in H. destruct H as (Hn0 & Hlen & HP & HW & _). rewrite Forall_forall in HW.
    apply (HT h1 v); [done|by apply HW|]. intros Hok. destruct HP as (parts & pad & -> & HC & Hpad).
    { destruct (decide (n = 0)%Z) as [->|]; [|lia]. destruct vs; [by apply elem_of_nil in Hw|done]. }
    apply elem_of_app in Hw as [Hw|Hw].
    + apply (aligned_part (abs h2 <$> parts)); [done| |done|by apply elem_of_list_fmap_1]. apply Forall_fmap, Forall_forall. intros x Hx. apply abs_ok, HW. apply elem_of_app. by left.
    + rewrite Forall_forall in Hpad. destruct (Hpad _ Hw) as (Hr & Hc & _). exists []. split; [by rewrite t_rows_abs|]. split; [constructor|]. intros k j x. unfold t_cell. rewrite Hc, lookup_empty. done.
  - destruct (C16_detached_view_isolates_main rt h1 v cols (proj1 IH)) as (w' & h2' & E' & W & A & _). rewrite E in E'. injection E' as <- <-.
    apply (HT h1 v); [done|done|]. intros Hok. rewrite A. eexists. by apply aligned_refl.
  - destruct (C17_copy_equal_independent_main rt h1 v (proj1 IH)) as (w' & h2' & E' & W & _ & _ & A1 & A2 & _). rewrite E in E'. injection E' as <- <-.
    apply (HT h1 v); [done|done|]. intros Hok. eexists. apply aligned_sub; [done|done|]. intros k col. by rewrite A2.
  - apply (HT h1 v); [done|apply wf_view, IH|]. intros Hok. rewrite abs_view. eexists. by apply aligned_refl.
  - destruct (shallow_copy_spec h1 v (proj1 IH)) as (w' & h2' & E' & _ & _ & W & A & _). rewrite E in E'. injection E' as <- <-.
    apply (HT h1 v); [done|done|]. intros Hok. rewrite A. eexists. apply aligned_sub; [done|done|]. done.
  - pose proof (C11_train_test_partition_main rt h1 v r (proj1 IH) Hn Hr1 Hr2) as H. rewrite E in H. destruct H as (_ & _ & HC & _ & W1 & W2 & _).
    apply (HT h1 v); [done|done|]. intros Hok. apply (aligned_part [abs h2 w1; abs h2 w2]); [done| |done|by left]. constructor; [by apply abs_ok|constructor; [by apply abs_ok|constructor]].
  - pose proof (C11_train_test_partition_main rt h1 v r (proj1 IH) Hn Hr1 Hr2) as H. rewrite E in H. destruct H as (_ & _ & HC & _ & W1 & W2 & _).
    apply (HT h1 v); [done|done|]. intros Hok. apply (aligned_part [abs h2 w1; abs h2 w2]); [done| |done|by right; left]. constructor; [by apply abs_ok|constructor; [by apply abs_ok|constructor]].
  - assert (HW : Forall (wf h1) (v0 :: vs)) by (apply Forall_forall; intros x Hx; apply (IH x Hx)).
    pose proof (C30_row_concat_partial_main rt h1 v0 vs HW) as H. rewrite E in H. destruct H as (HH & W & A & _). split; [done|].
    destruct (aligned_stack (abs h d) (abs h1 <$> v0 :: vs)) as (ix & HL & HF & HC).
    { apply Forall_fmap. eapply Forall_impl; [exact HW|]. intros x Wx. by apply abs_ok. }
    { apply Forall_fmap, Forall_forall. intros x Hx. apply (IH x Hx). }
    exists ix. rewrite A. split; [done|]. split; [done|]. intros k j x. unfold t_cell at 1. unfold t_stack. cbn [t_cols]. rewrite map_lookup_imap.
    destruct (t_cols (abs h1 v0) !! k) as [c0|] eqn:E0; [|done]. cbn [mbind option_bind]. apply HC.
    rewrite fmap_cons. constructor; [by eexists|]. apply Forall_fmap. eapply Forall_impl; [exact HH|]. intros y Hy. cbv beta. unfold has_cols in Hy. apply elem_of_dom, Hy. by apply elem_of_dom_2 in E0.
Qed.
End main.

(** Row by row: the values of a row of any dataframe made from [d] are the
    values of one row of [d]. *)
Lemma C115_rows_main : forall (rt : GoRT) (h : heap) (d : dframe) (h' : heap) (v : dframe),
  wf h d -> derived rt h d h' v ->
  wf h' v /\ forall j, j < num_rows v -> exists i, i < num_rows d /\
    forall k col, t_cols (abs h' v) !! k = Some col -> exists x, col !! j = Some x /\ t_cell (abs h d) k i = Some x.
Proof.
  intros rt h d h' v W HD. destruct (derived_aligned rt h d h' v W HD) as (Wv & ix & R & F & C). split; [done|]. intros j Hj.
  rewrite t_rows_abs in R. destruct (lookup_lt_is_Some_2 ix j) as [i Hi]; [lia|]. exists i. split; [exact (Forall_lookup_1 _ _ _ _ F Hi)|].
  intros k col Hk. pose proof (proj1 (abs_ok _ _ Wv _ _ Hk)) as Hl. rewrite t_rows_abs in Hl. destruct (lookup_lt_is_Some_2 col j) as [x Hx]; [lia|].
  exists x. split; [done|]. destruct (C k j x) as (i' & Hi' & ?); [unfold t_cell; rewrite Hk; done|]. by simplify_eq.
Qed.

(** Predictions: a new column is written to [v], which shows no stored row
    twice; any dataframe made from the result shows each value beside the
    values of its row. *)
Lemma C115_written_main : forall (rt : GoRT) (h : heap) (d : dframe) (h1 : heap) (v : dframe) (h2 h3 : heap) (v2 w : dframe) (k : kind) (c : string) (vals : list val),
  wf h d -> derived rt h d h1 v -> NoDup (inds v) -> t_cols (abs h1 v) <> ∅ -> t_cols (abs h1 v) !! (k, c) = None ->
  Forall (fun v => kind_of v = k) vals -> overwrite k false v c vals h1 = Ok (v2, h2) -> derived rt h2 v2 h3 w ->
  forall j, j < num_rows w -> exists i m, i < num_rows d /\ m < num_rows v /\
    (forall k' col, k' <> (k, c) -> t_cols (abs h3 w) !! k' = Some col ->
       exists x, col !! j = Some x /\ t_cell (abs h1 v) k' m = Some x /\ t_cell (abs h d) k' i = Some x) /\
    (forall col, t_cols (abs h3 w) !! (k, c) = Some col -> exists x, col !! j = Some x /\ vals !! m = Some x).
Proof.
  intros rt h d h1 v h2 h3 v2 w k c vals W HD Hnd Hne Hno Hk Eo HD2 j Hj.
  destruct (C115_rows_main rt h d h1 v W HD) as (Wv & HA).
  pose proof (C22_overwrite_missing_main rt h1 v k false c vals Wv Hno (or_introl Hne)) as HO. rewrite Eo in HO. destruct HO as (Hlen & W2 & A2); [done|done|]. specialize (A2 Hnd).
  assert (HR : t_rows (abs h2 v2) = t_rows (abs h1 v)) by (by rewrite A2).
  assert (HC : t_cols (abs h2 v2) = <[(k, c) := take (num_rows v) vals]> (t_cols (abs h1 v))) by (by rewrite A2). clear A2.
  destruct (C115_rows_main rt h2 v2 h3 w W2 HD2) as (Ww & HB).
  destruct (HB j Hj) as (m & Hm & HM). rewrite !t_rows_abs in HR. rewrite HR in Hm. destruct (HA m Hm) as (i & Hi & HI). exists i, m. split; [done|]. split; [done|]. split.
  - intros k' col Hne' Hk'. destruct (HM _ _ Hk') as (x & Hx & Hc). unfold t_cell in Hc. rewrite HC, lookup_insert_ne in Hc by congruence.
    destruct (t_cols (abs h1 v) !! k') as [col'|] eqn:E; [|done]. simpl in Hc. destruct (HI _ _ E) as (x' & Hx' & ?). assert (x' = x) as -> by congruence.
    exists x. split; [done|]. split; [|done]. unfold t_cell. by rewrite E.
  - intros col Hk'. destruct (HM _ _ Hk') as (x & Hx & Hc). unfold t_cell in Hc. rewrite HC, lookup_insert in Hc. simpl in Hc. exists x. split; [done|]. by rewrite lookup_take in Hc.
Qed.

(** ** A concrete case *)
Section wit.
Existing Instance ex_rt.
(** The rows with a true flag, in reverse order, their numbers written into a
    new column; then the rows with 9 in column a. *)
Definition wr1 := run_df (mask_view ex_d [true; true; true; false]) ex_h.
Definition wr2 := (reverse_view wr1.1, wr1.2).
Definition wr3 := run_df (overwrite KInt false wr2.1 "p" [VInt 10; VInt 20; VInt 30]) wr2.2.
Definition wr4 := run_df (index_view wr3.1 [2; 0]%Z) wr3.2.
Lemma C115_check_main : wf ex_h ex_d /\ derived ex_rt ex_h ex_d wr2.2 wr2.1 /\ NoDup (inds wr2.1) /\
  t_cols (abs wr2.2 wr2.1) <> ∅ /\ t_cols (abs wr2.2 wr2.1) !! (KInt, "p") = None /\
  overwrite KInt false wr2.1 "p" [VInt 10; VInt 20; VInt 30] wr2.2 = Ok (wr3.1, wr3.2) /\ derived ex_rt wr3.2 wr3.1 wr4.2 wr4.1 /\
  show KInt "a" wr2.2 wr2.1 = Some [VInt 9; VInt 3; VInt 5] /\
  show KInt "a" wr4.2 wr4.1 = Some [VInt 5; VInt 9] /\ show KInt "p" wr4.2 wr4.1 = Some [VInt 30; VInt 10].
Proof.
  split; [exact ex_wf|].
  split. { apply dv_reverse. eapply dv_mask; [apply dv_self|]. instantiate (1 := [true; true; true; false]). by vm_compute. }
  split; [apply (bool_decide_unpack _); by vm_compute|].
  split. { intros E. assert (HS : is_Some (t_cols (abs wr2.2 wr2.1) !! (KInt, "a"))) by (apply (bool_decide_unpack _); by vm_compute). rewrite E, lookup_empty in HS. destruct HS as [? HS]. discriminate HS. }
  split; [by vm_compute|]. split; [by vm_compute|].
  split. { eapply dv_index; [apply dv_self|]. instantiate (1 := [2; 0]%Z). by vm_compute. }
  split_and!; by vm_compute.
Qed.
End wit.
