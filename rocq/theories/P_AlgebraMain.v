(** C113 and C114: splitting and joining; views of views. *)
From Coq Require Import Reals.
From Flocq Require Raux.
From Verif Require P_Float.
From Verif Require Export P_ViewMain P_ReadMain.
From stdpp Require Import strings list.
From Verif Require Import Spec_Concat P_Base P_Check.
Open Scope nat_scope.

(** The same table but for the text encoding, which is lost. *)
Definition t_no_enc (t : table) : table := Table (t_rows t) (t_cols t) (t_strs t) None (t_cpu t).

Lemma stack_concat t0 ts t : t_concat (t0 :: ts) t -> t_stack t0 (t0 :: ts) = t_no_enc t.
Proof.
  intros (Hr & HF & Hc). unfold t_stack, t_no_enc. pose proof (Forall_inv HF) as (Hd & Hs & _ & Hcpu). f_equal; [done| | |done].
  - apply map_eq. intros k. rewrite map_lookup_imap.
    destruct (t_cols t !! k) as [col|] eqn:E.
    + assert (Hk : k ∈ dom (t_cols t0)) by (rewrite Hd; by apply elem_of_dom_2 in E). apply elem_of_dom in Hk as [c0 ->]. simpl. f_equal. by apply Hc.
    + assert (Hk : k ∉ dom (t_cols t0)) by (rewrite Hd; by apply not_elem_of_dom). apply not_elem_of_dom in Hk. by rewrite Hk.
  - clear Hr Hc. apply set_eq. intros x. rewrite elem_of_union_list. setoid_rewrite elem_of_list_fmap. split.
    + intros (X & (p & -> & Hp) & Hx). rewrite Forall_forall in HF. destruct (HF p Hp) as (_ & <- & _). done.
    + intros Hx. exists (t_strs t0). split; [exists t0; split; [done|left]|]. by rewrite Hs.
Qed.
Lemma concat_has t0 ts t : t_concat (t0 :: ts) t -> Forall (has_cols t0) ts.
Proof.
  intros (_ & HF & _). pose proof (Forall_inv HF) as (Hd & _). apply Forall_inv_tail in HF. eapply Forall_impl; [exact HF|]. intros p (E & _). unfold has_cols. by rewrite E, Hd.
Qed.

Section join.
Context (rt : GoRT).
Lemma join_parts h h1 (d : dframe) v0 vs : Forall (wf h1) (v0 :: vs) -> t_concat (abs h1 <$> v0 :: vs) (abs h d) ->
  exists w h2, row_concat (v0 :: vs) h1 = Ok (Some w, h2) /\ abs h2 w = t_no_enc (abs h d) /\ wf h2 w /\ preserved h1 h2 /\ independent h1 h2 w.
Proof.
  intros HW HC. pose proof (C30_row_concat_partial_main rt h1 v0 vs HW) as H. rewrite fmap_cons in HC.
  pose proof (concat_has _ _ _ HC) as HH. rewrite Forall_fmap in HH.
  destruct (row_concat (v0 :: vs) h1) as [[[w|] h2]|]; [| |done].
  - destruct H as (_ & W & E & P & I). exists w, h2. split; [done|]. split; [rewrite E; by apply stack_concat|]. done.
  - destruct H as [H _]. exfalso. apply Exists_exists in H as (x & Hx & Hn). rewrite Forall_forall in HH. apply Hn. by apply HH.
Qed.
End join.

(** SplitView, then RowConcat. *)
Lemma C113_split_join_main : forall (rt : GoRT) (h : heap) (d : dframe) (b : Z) vs h1,
  wf h d -> split_view d b h = Ok (vs, h1) ->
  exists w h2, row_concat vs h1 = Ok (Some w, h2) /\ abs h2 w = t_no_enc (abs h d) /\ wf h2 w /\ preserved h h2 /\ independent h1 h2 w.
Proof.
  intros rt h d b vs h1 W E. pose proof (C09_split_view_batches_main rt h d b W) as H. rewrite E in H.
  destruct H as (_ & HC & Hne & _ & _ & HW & HP & _). destruct vs as [|v0 vs]; [done|].
  destruct (join_parts rt h h1 d v0 vs HW HC) as (w & h2 & ? & ? & ? & HP2 & ?). exists w, h2. split_and!; try done.
  by eapply preserved_trans.
Qed.
(** SplitTrainTestViews, then RowConcat. *)
Lemma C113_train_test_main : forall (rt : GoRT) (h : heap) (d : dframe) (r : f64) train test h1,
  wf h d -> (Z.of_nat (num_rows d) <= 2 ^ 53)%Z -> valid_binary 53 1024 r = true -> f64_isnan r = false ->
  split_train_test d r h = Ok ((train, test), h1) ->
  exists w h2, row_concat [train; test] h1 = Ok (Some w, h2) /\ abs h2 w = t_no_enc (abs h d) /\ wf h2 w /\ preserved h h2 /\ independent h1 h2 w.
Proof.
  intros rt h d r train test h1 W Hn Hv Hna E. pose proof (C11_train_test_partition_main rt h d r W Hn Hv Hna) as H. rewrite E in H.
  destruct H as (_ & _ & HC & _ & W1 & W2 & HP & _).
  destruct (join_parts rt h h1 d train [test]) as (w & h2 & ? & ? & ? & HP2 & ?); [by repeat constructor|done|].
  exists w, h2. split_and!; try done. by eapply preserved_trans.
Qed.
(** ShuffleView, SplitView and RowConcat: the rows in another order. *)
Lemma C113_shuffled_main : forall (rt : GoRT) (rnd : nat -> nat) (h : heap) (d : dframe) (b : Z) v h1 vs h2,
  wf h d -> shuffle_view rnd d h = Ok (v, h1) -> split_view v b h1 = Ok (vs, h2) ->
  exists w h3 p, row_concat vs h2 = Ok (Some w, h3) /\ p ≡ₚ seq 0 (num_rows d) /\ abs h3 w = t_no_enc (t_select p (abs h d)).
Proof.
  intros rt rnd h d b v h1 vs h2 W E1 E2. destruct (C07_shuffle_view_permutes_main rt rnd h d W) as (p & v' & h1' & Hp & E & HA & Wv & _).
  rewrite E1 in E. injection E as <- <-. destruct (C113_split_join_main rt h1 v b vs h2 Wv E2) as (w & h3 & ? & EA & _).
  exists w, h3, p. split; [done|]. split; [done|]. by rewrite EA, HA.
Qed.

(** ** Views of views *)
Lemma select_select (ix jx : list nat) t : t_ok t -> Forall (fun i => i < t_rows t) ix -> Forall (fun j => j < length ix) jx ->
  t_select jx (t_select ix t) = t_select (pick jx ix) t.
Proof.
  intros Hok Hi Hj. unfold t_select. simpl. f_equal; [by rewrite pick_length|]. rewrite <- map_fmap_compose. apply map_fmap_ext. intros k col Hk. simpl.
  apply pick_pick. by rewrite (proj1 (Hok _ _ Hk)).
Qed.
Lemma to_nat_rng (l : list Z) n : Forall (fun i => (0 <= i < Z.of_nat n)%Z) l -> Forall (fun i => i < n) (Z.to_nat <$> l).
Proof. intros H. apply Forall_fmap. eapply Forall_impl; [exact H|]. simpl. lia. Qed.
Lemma t_rows_abs h d : t_rows (abs h d) = num_rows d.
Proof. done. Qed.

(** IndexView of an IndexView selects the rows at the composed positions. *)
Lemma C114_index_index_main : forall (rt : GoRT) (h : heap) (d : dframe) (l m : list Z) v h1 w h2,
  wf h d -> index_view d l h = Ok (v, h1) -> index_view v m h1 = Ok (w, h2) ->
  exists w' h', index_view d ((fun j => default 0%Z (l !! Z.to_nat j)) <$> m) h = Ok (w', h') /\ abs h' w' = abs h2 w.
Proof.
  intros rt h d l m v h1 w h2 W E1 E2. pose proof (C01_index_view_selects_main rt h d l W) as H1. rewrite E1 in H1. destruct H1 as (R1 & A1 & W1 & _).
  pose proof (C01_index_view_selects_main rt h1 v m W1) as H2. rewrite E2 in H2. destruct H2 as (R2 & A2 & W2 & _).
  set (lm := (fun j => default 0%Z (l !! Z.to_nat j)) <$> m).
  assert (Hv : num_rows v = length l). { rewrite <- (t_rows_abs h1), A1. simpl. by rewrite fmap_length. }
  rewrite Hv in R2. pose proof (to_nat_rng _ _ R2) as R2'. 
  assert (Hlm : Forall (fun i => (0 <= i < Z.of_nat (num_rows d))%Z) lm).
  { unfold lm. apply Forall_fmap. eapply Forall_impl; [exact R2|]. intros j Hj. cbv beta in Hj |- *. simpl.
    destruct (lookup_lt_is_Some_2 l (Z.to_nat j)) as [i Hi]; [lia|]. rewrite Hi. simpl. exact (Forall_lookup_1 _ _ _ _ R1 Hi). }
  pose proof (C01_index_view_selects_main rt h d lm W) as H3. destruct (index_view d lm h) as [[w' h']|].
  2:{ exfalso. apply Exists_exists in H3 as (x & Hx & Hn). rewrite Forall_forall in Hlm. specialize (Hlm _ Hx). lia. }
  destruct H3 as (_ & A3 & _). exists w', h'. split; [done|]. rewrite A3, A2, A1. rewrite select_select; [|by apply abs_ok|by apply to_nat_rng|by rewrite fmap_length].
  f_equal. clear - R2. unfold lm. induction m as [|j m IH]; [done|]. rewrite !fmap_cons, pick_cons, list_lookup_fmap.
  pose proof (Forall_inv R2) as Hj. simpl in Hj. destruct (lookup_lt_is_Some_2 l (Z.to_nat j)) as [i Hi]; [lia|]. rewrite Hi. simpl. f_equal. apply IH. by apply Forall_inv_tail in R2.
Qed.

(** SliceView of a SliceView. *)
Lemma C114_slice_slice_main : forall (rt : GoRT) (h : heap) (d : dframe) (a b c e : Z),
  wf h d -> (0 <= a <= b)%Z -> (b <= Z.of_nat (num_rows d))%Z -> (0 <= c <= e)%Z -> (e <= b - a)%Z ->
  exists v h1 w h2 w' h', slice_view d a b h = Ok (v, h1) /\ slice_view v c e h1 = Ok (w, h2) /\
    slice_view d (a + c) (a + e) h = Ok (w', h') /\ abs h' w' = abs h2 w.
Proof.
  intros rt h d a b c e W Hab Hb Hce He.
  destruct (C02_slice_view_rows_main rt h d a b W) as (v & h1 & E1 & A1 & W1 & _); [repeat case_decide; lia|repeat case_decide; lia|].
  rewrite !decide_False in A1 by lia.
  assert (Hv : num_rows v = Z.to_nat b - Z.to_nat a) by (by rewrite <- (t_rows_abs h1), A1).
  destruct (C02_slice_view_rows_main rt h1 v c e W1) as (w & h2 & E2 & A2 & _); [repeat case_decide; lia|repeat case_decide; lia|].
  rewrite !decide_False in A2 by lia.
  destruct (C02_slice_view_rows_main rt h d (a + c) (a + e) W) as (w' & h' & E3 & A3 & _); [repeat case_decide; lia|repeat case_decide; lia|].
  rewrite !decide_False in A3 by lia.
  exists v, h1, w, h2, w', h'. split; [done|]. split; [done|]. split; [done|]. rewrite A3, A2, A1. generalize (abs h d). intros t. unfold t_slice. simpl.
  f_equal; [lia|]. rewrite <- map_fmap_compose. apply map_fmap_ext. intros k col _. simpl.
  rewrite skipn_firstn_comm, drop_drop, take_take. f_equal; [lia|]. f_equal. lia.
Qed.

(** Rows and columns can be selected in either order. *)
Lemma project_select ix cols t : t_project cols (t_select ix t) = t_select ix (t_project cols t).
Proof.
  unfold t_project, t_select. simpl. f_equal.
  - apply map_eq. intros k. rewrite lookup_fmap. apply option_eq. intros x. rewrite map_filter_lookup_Some, lookup_fmap.
    destruct (filter _ (t_cols t) !! k) as [col|] eqn:E.
    + apply map_filter_lookup_Some in E as [-> Hc]. simpl. naive_solver.
    + apply map_filter_lookup_None in E as [E|E]; [rewrite E; simpl; naive_solver|]. simpl. split; [|done]. intros [H Hc]. apply fmap_Some in H as (col & Hk & ->). by destruct (E _ Hk).
  - apply set_eq. intros x. rewrite !elem_of_filter, lookup_fmap, fmap_is_Some. done.
Qed.
Lemma C114_columns_rows_main : forall (rt : GoRT) (h : heap) (d : dframe) (cols : list string) (l : list Z),
  wf h d -> Forall (fun i => (0 <= i < Z.of_nat (num_rows d))%Z) l ->
  exists v h1 w h2 v' h1' w' h2',
    column_view d cols h = Ok (v, h1) /\ index_view v l h1 = Ok (w, h2) /\
    index_view d l h = Ok (v', h1') /\ column_view v' cols h1' = Ok (w', h2') /\ abs h2' w' = abs h2 w.
Proof.
  intros rt h d cols l W Hl.
  assert (HI : forall h d, wf h d -> Forall (fun i => (0 <= i < Z.of_nat (num_rows d))%Z) l ->
    exists v h1, index_view d l h = Ok (v, h1) /\ abs h1 v = t_select (Z.to_nat <$> l) (abs h d) /\ wf h1 v).
  { intros h0 d0 W0 Hl0. pose proof (C01_index_view_selects_main rt h0 d0 l W0) as H. destruct (index_view d0 l h0) as [[v h1]|].
    - destruct H as (_ & ? & ? & _). eauto.
    - exfalso. apply Exists_exists in H as (x & Hx & Hn). rewrite Forall_forall in Hl0. specialize (Hl0 _ Hx). lia. }
  destruct (C05_column_view_projects_main rt h d cols W) as (v & h1 & E1 & A1 & W1 & _).
  assert (Hv : num_rows v = num_rows d). { rewrite <- (t_rows_abs h1), A1. by destruct (decide (cols = [])). }
  destruct (HI h1 v W1) as (w & h2 & E2 & A2 & _); [by rewrite Hv|].
  destruct (HI h d W Hl) as (v' & h1' & E3 & A3 & W3).
  destruct (C05_column_view_projects_main rt h1' v' cols W3) as (w' & h2' & E4 & A4 & _).
  exists v, h1, w, h2, v', h1', w', h2'. do 4 (split; [done|]). rewrite A4, A2, A1, A3. destruct (decide (cols = [])); [done|]. apply project_select.
Qed.
(** ColumnView of a ColumnView keeps the columns of both. *)
Lemma C114_columns_columns_main : forall (rt : GoRT) (h : heap) (d : dframe) (c1 c2 : list string),
  wf h d -> c1 <> [] -> (exists c, c ∈ c2 /\ c ∈ c1) ->
  exists v h1 w h2 w' h', column_view d c1 h = Ok (v, h1) /\ column_view v c2 h1 = Ok (w, h2) /\
    column_view d (filter (fun c => c ∈ c1) c2) h = Ok (w', h') /\ abs h' w' = abs h2 w.
Proof.
  intros rt h d c1 c2 W H1 (c & Hc2 & Hc1).
  destruct (C05_column_view_projects_main rt h d c1 W) as (v & h1 & E1 & A1 & W1 & _). rewrite decide_False in A1 by done.
  destruct (C05_column_view_projects_main rt h1 v c2 W1) as (w & h2 & E2 & A2 & _). rewrite decide_False in A2 by (intros ->; by apply elem_of_nil in Hc2).
  assert (Hf : c ∈ filter (fun c => c ∈ c1) c2) by (by apply elem_of_list_filter).
  destruct (C05_column_view_projects_main rt h d (filter (fun c => c ∈ c1) c2) W) as (w' & h' & E3 & A3 & _). rewrite decide_False in A3 by (intros E; rewrite E in Hf; by apply elem_of_nil in Hf).
  exists v, h1, w, h2, w', h'. do 3 (split; [done|]). rewrite A3, A2, A1. generalize (abs h d). intros t. unfold t_project. simpl. f_equal.
  - apply map_eq. intros k. apply option_eq. intros x. rewrite !map_filter_lookup_Some. simpl. rewrite elem_of_list_filter. naive_solver.
  - apply set_eq. intros x. rewrite !elem_of_filter, elem_of_list_filter.
    assert (HS : x ∈ c1 -> (is_Some (filter (fun p : key * list val => p.1.2 ∈ c1) (t_cols t) !! (KObj, x)) <-> is_Some (t_cols t !! (KObj, x)))).
    { intros Hx. split; intros [y Hy]; exists y; [by apply map_filter_lookup_Some in Hy as [? _]|by apply map_filter_lookup_Some]. }
    split.
    + intros (((Hx1 & Hx2) & Hs) & Ht). split; [split; [done|by apply HS]|]. done.
    + intros ((Hx2 & Hs) & (Hx1 & Hs') & Ht). done.
Qed.

(** ** Concrete cases *)
Section wit.
Existing Instance ex_rt.
Definition wj_split : list dframe * heap := match split_view ex_v 2 ex_vh with Ok p => p | Panic => ([], heap0) end.
Definition wj := run_odf (row_concat wj_split.1) wj_split.2.
Lemma C113_check_main : wf ex_vh ex_v /\ split_view ex_v 2 ex_vh = Ok (wj_split.1, wj_split.2) /\ length wj_split.1 = 2 /\
  show KInt "a" ex_vh ex_v = Some [VInt 9; VInt 5; VInt 9] /\ show KInt "a" wj.2 wj.1 = Some [VInt 9; VInt 5; VInt 9] /\
  show KObj "s" wj.2 wj.1 = show KObj "s" ex_vh ex_v.
Proof. split; [exact ex_v_wf|]. split_and!; by vm_compute. Qed.
(** The parts of SplitNView cannot be joined when some are padding: four rows
    in three parts. *)
Lemma C113_split_n_refuted_main : exists (h : heap) (d : dframe) vs h1 h2, wf h d /\ num_rows d = 4 /\
  split_n_view (rt := ex_rt) d 3 h = Ok (vs, h1) /\ row_concat vs h1 = Ok (None, h2).
Proof.
  exists ex_h, ex_d. destruct (split_n_view ex_d 3 ex_h) as [[vs h1]|] eqn:E; [|by vm_compute in E].
  destruct (row_concat vs h1) as [[[w|] h2]|] eqn:E2; [exfalso| |exfalso].
  2:{ exists vs, h1, h2. split; [exact ex_wf|]. split_and!; by first [done|vm_compute]. }
  all: assert (E3 : match split_n_view ex_d 3 ex_h with Ok (vs, h1) => match row_concat vs h1 with Ok (None, _) => true | _ => false end | Panic => false end = true) by (by vm_compute).
  all: rewrite E, E2 in E3; discriminate E3.
Qed.
Definition wj_cols := run_df (column_view ex_d ["s"; "b"]) ex_h.
Definition wj_crows := run_df (index_view wj_cols.1 [3; 0; 3]%Z) wj_cols.2.
Definition wj_slice := run_df (slice_view ex_d 1 4) ex_h.
Definition wj_slice2 := run_df (slice_view wj_slice.1 1 3) wj_slice.2.
Definition wj_index := run_df (index_view ex_v [1; 2]%Z) ex_vh.
Lemma C114_check_main : wf ex_h ex_d /\ num_rows ex_d = 4 /\
  index_view ex_d [2; 0; 2]%Z ex_h = Ok (ex_v, ex_vh) /\ index_view ex_v [1; 2]%Z ex_vh = Ok (wj_index.1, wj_index.2) /\
  show KInt "a" wj_index.2 wj_index.1 = Some [VInt 5; VInt 9] /\
  show KInt "a" wj_slice2.2 wj_slice2.1 = Some [VInt 9; VInt 1] /\
  show KObj "s" wj_crows.2 wj_crows.1 = Some [VObj (OStr "x"); VObj (OStr "x"); VObj (OStr "x")] /\
  show KInt "a" wj_crows.2 wj_crows.1 = None.
Proof. split; [exact ex_wf|]. split_and!; by vm_compute. Qed.
End wit.
