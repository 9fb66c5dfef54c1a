(** C108: what the functions that manage copies allocate. *)
From Verif Require Import M_Uid.
From Verif Require Export P_NoCopyMain.
From Verif Require Import P_UidMain P_Share P_Detach P_Exec P_View3.
From stdpp Require Import strings list.
From Verif Require Import Spec_NoCopy Spec_Cost P_Base P_Check.

Lemma no_filter (P : key * slice -> Prop) `{!forall x, Decision (P x)} (m : gmap key slice) :
  (forall k s, m !! k = Some s -> ~ P (k, s)) -> size (filter P m) = 0.
Proof.
  intros Hn. apply map_size_empty_iff. apply map_eq. intros k. rewrite lookup_empty. apply map_filter_lookup_None.
  destruct (m !! k) as [s|] eqn:E; [right|by left]. intros s' [= <-]. by apply Hn.
Qed.
Lemma filter_le (P Q : key * slice -> Prop) `{!forall x, Decision (P x)} `{!forall x, Decision (Q x)} (m : gmap key slice) :
  (forall x, P x -> Q x) -> size (filter P m) <= size (filter Q m).
Proof.
  intros Hi. rewrite <- !size_dom. apply subseteq_size. intros k. rewrite !elem_of_dom. intros [s [Hs Hp]%map_filter_lookup_Some].
  exists s. apply map_filter_lookup_Some. auto.
Qed.
Lemma filter_all (P : key * slice -> Prop) `{!forall x, Decision (P x)} (m : gmap key slice) : size (filter P m) <= size m.
Proof.
  rewrite <- !size_dom. apply subseteq_size. intros k. rewrite !elem_of_dom. intros [s [Hs Hp]%map_filter_lookup_Some]. by exists s.
Qed.
Lemma unshare_cells (rt : GoRT) r cols h r' h' n : r_maps r < length (h_map h) -> valid_shr h (r_shared r) -> map_ok h n (mp h (r_maps r)) ->
  unshare r cols h = Ok (r', h') ->
  let m := mp h (r_maps r) in
  total_cells h' = total_cells h + n * size (filter (fun p : key * slice => p.1.2 ∈ shared_cols h r /\ p.1.2 ∈ unshare_set r m cols) m).
Proof.
  intros Hm Hv Hok H m. unfold unshare in H. apply bind_ok in H as (sh & h2 & [= <- <-] & H).
  destruct (negb (r_sharedMaps r) && bool_decide (oshr h (r_shared r) = ∅)) eqn:Eb.
  { apply andb_true_iff in Eb as [E1 E2]. apply negb_true_iff in E1. apply bool_decide_eq_true in E2. injection H as <- <-.
    unfold shared_cols. rewrite E1, E2. rewrite no_filter; [lia|].
    intros k s _ [Hx _]. by apply elem_of_empty in Hx. }
  apply bind_ok in H as (r1 & h1 & E & H).
  destruct (own_maps_spec r h Hm Hv) as (r2 & h3 & E' & X & A & _ & L & Em & _ & _ & _ & _ & _ & Es & Es').
  rewrite E in E'. injection E' as <- <-. fold m in Em, Es.
  apply bind_ok in H as (m2 & h4 & [= <- <-] & H). apply bind_ok in H as (sh & h5 & [= <- <-] & H).
  assert (Esh : oshr h1 (r_shared r1) = shared_cols h r).
  { unfold shared_cols. destruct (r_sharedMaps r); [by apply Es|]. by destruct Es' as [-> ->]. }
  rewrite Em, Esh in H.
  apply bind_ok in H as (u & h4 & E4 & H). apply bind_ok in H as (u2 & h5 & E5 & [= _ <-]).
  assert (Ht5 : total_cells h5 = total_cells h4).
  { unfold shr_remove in E5. destruct (r_shared r1); injection E5 as _ <-; done. }
  rewrite Ht5. apply (copy_cells _ n) in E4.
  - rewrite E4. unfold total_cells at 1. rewrite A. fold (total_cells h). f_equal. rewrite Nat.mul_comm. done.
  - intros [k s]. rewrite elem_of_map_to_list, map_filter_lookup_Some. intros [Hk _]. destruct (Hok k s Hk) as [(H1 & H2 & _) H3].
    simpl. unfold arr in *. rewrite A. split; [lia|done].
Qed.

Lemma gather_length s l : forall h vs h', gather s l h = Ok (vs, h') -> length vs = length l /\ h' = h.
Proof.
  induction l as [|i l IH]; intros h vs h'; [by intros [= <- <-]|]. cbn [gather].
  intros (v & h1 & E1 & H)%bind_ok. apply bind_ok in H as (r & h2 & E2 & [= <- <-]).
  destruct (IH _ _ _ E2) as [H1 ->]. unfold sl_rd in E1. destruct (sl_vals h s !! i); [|done]. injection E1 as _ <-. simpl. by rewrite H1.
Qed.
Lemma copy_loop_cells (b : bool) is l n cols : forall h a h',
  (if b then length is = n else forall p : key * slice, p ∈ cols -> s_off p.2 + s_len p.2 <= length (arr h (s_arr p.2)) /\ s_len p.2 = n) ->
  forM cols (fun p => let* vs := (if b then gather p.2 is else get_vals p.2) in let* s := lit_slice vs in put_col l p.1 s) h = Ok (a, h') ->
  total_cells h' = total_cells h + length cols * n.
Proof.
  destruct b; [|intros h a h'; apply copy_cells].
  intros h a h' <-. intros H. apply (cells_forM cols _ (length is)) in H; [done|].
  intros p h1 u h2 (vs & h3 & E3 & E)%bind_ok. apply gather_length in E3 as [Hl ->].
  apply bind_ok in E as (s & h4 & E4 & E). unfold lit_slice in E4. apply bind_ok in E4 as (x & h5 & [= _ <-] & [= _ <-]).
  rewrite (cells_put_col _ _ _ _ _ _ E), total_app. by rewrite Hl.
Qed.
Lemma copy_df_cells (rt : GoRT) h d v h' : wf h d -> copy_df d h = Ok (v, h') ->
  total_cells h' = total_cells h + num_rows d * num_columns (mp h (r_maps (d_raw d))).
Proof.
  intros [n W] H. unfold copy_df in H. apply bind_ok in H as (e & h1 & E1 & H). apply bind_ok in H as (st & h2 & E2 & H).
  destruct (empty_df_spec (Z.of_nat (num_rows d)) (r_cpu (d_raw d)) h) as (e' & h1' & E1' & X1 & A1 & _); [lia|].
  rewrite E1 in E1'. injection E1' as <- <-.
  apply bind_ok in H as (m & h3 & [= <- <-] & H). apply bind_ok in H as (u & h3 & E3 & [= _ <-]).
  assert (Ea2 : h_arr h2 = h_arr h1 /\ h_map h2 = h_map h1).
  { unfold str_copy in E2. destruct (r_strs (d_raw d)); [|by injection E2 as _ <-].
    repeat (apply bind_ok in E2 as (? & ? & E2' & E2); injection E2' as _ <-). by injection E2 as _ <-. }
  destruct Ea2 as [Ea2 Em2].
  assert (Ea1 : h_arr h1 = h_arr h) by (apply (keeps_empty_df _ _ _ _ _ E1)).
  assert (Em : mp h2 (r_maps (d_raw d)) = mp h (r_maps (d_raw d))).
  { unfold mp. rewrite Em2. change (mp h1 (r_maps (d_raw d)) = mp h (r_maps (d_raw d))). by apply (ext_mp _ _ _ X1), W. }
  rewrite Em in E3. apply (copy_loop_cells _ _ _ (num_rows d)) in E3.
  - rewrite E3. unfold total_cells at 1. rewrite Ea2, Ea1. fold (total_cells h). f_equal. rewrite Nat.mul_comm. done.
  - destruct (d_viewed d) eqn:Ev; [by apply (wfn_inds_length _ _ _ W)|].
    intros [k s]. rewrite elem_of_map_to_list. intros Hk. destruct (wf_cols _ _ _ W k s Hk) as [(H1 & H2 & _) H3].
    destruct (wf_cont _ _ _ W Ev) as [_ Hn]. simpl. unfold arr in *. rewrite Ea2, Ea1. split; [lia|lia].
Qed.

Lemma C108_order_main : forall (rt : GoRT) (h : heap) (d : dframe) (cols : list string), wf h d ->
  let m := mp h (r_maps (d_raw d)) in
  exists a b,
    (forall e, wf h e -> costs (transfer_raw (d_raw e) (d_raw d)) h 0) /\ costs (shallow_copy d) h 0 /\
    costs (unshare (d_raw d) cols) h a /\ costs (detached_view d cols) h b /\
    costs (copy_df d) h (num_rows d * num_columns m) /\
    a <= b /\ b <= num_alloc_rows m * num_columns m /\
    (num_alloc_rows m <= num_rows d -> b <= num_rows d * num_columns m).
Proof.
  intros rt h d cols W m. pose proof W as [n Wn].
  destruct (unshare_spec h (d_raw d) cols n (wf_map _ _ _ Wn) (wf_shr _ _ _ Wn) (wf_cols _ _ _ Wn)) as (r' & h1 & E1 & _).
  destruct (detached_view_spec h d cols W) as (v & h2 & E2 & _).
  destruct (copy_df_spec h d W) as (v3 & h3 & E3 & _).
  pose proof (unshare_cells rt _ _ _ _ _ n (wf_map _ _ _ Wn) (wf_shr _ _ _ Wn) (wf_cols _ _ _ Wn) E1) as C1.
  pose proof (detached_cells _ _ _ _ _ _ Wn E2) as C2. cbv zeta in C1, C2. fold m in C1, C2.
  set (a := n * size _) in C1. set (b := n * size _) in C2. exists a, b.
  assert (Hb : b <= num_alloc_rows m * num_columns m).
  { destruct (decide (m = ∅)) as [Hz|Hz].
    - unfold b. rewrite Hz. rewrite map_filter_empty, map_size_empty. lia.
    - pose proof (alloc_rows _ _ _ Wn Hz) as Hn. fold m in Hn. rewrite Hn. unfold b, num_columns. apply Nat.mul_le_mono_l, filter_all. }
  split. { intros e We. destruct (C100_transfer_main rt h e d 0 0 We W) as (r & w & h4 & _ & E & _). exists r, h4. split; [done|]. exact (keeps_cells _ (keeps_transfer_raw _ _) _ _ _ E). }
  split. { destruct (shallow_copy_spec h d W) as (v4 & h4 & E & _). exists v4, h4. split; [done|]. exact (keeps_cells _ (keeps_shallow d) _ _ _ E). }
  split; [by exists r', h1|]. split; [by exists v, h2|]. split. { exists v3, h3. split; [done|]. exact (copy_df_cells rt h d v3 h3 W E3). }
  split. { apply Nat.mul_le_mono_l, filter_le. intros x [_ Hx]. exact Hx. }
  split; [done|]. intros Hn. etrans; [exact Hb|]. by apply Nat.mul_le_mono_r.
Qed.

(** After Unshare of everything there is nothing left to copy. *)
Lemma C108_twice_main : forall (rt : GoRT) (h : heap) (d : dframe) r' h' cols, wf h d -> unshare (d_raw d) [] h = Ok (r', h') ->
  costs (unshare r' cols) h' 0.
Proof.
  intros rt h d r' h' cols W E. destruct (unshare_df h d [] W) as (r1 & h1 & E1 & _ & W1 & _).
  rewrite E in E1. injection E1 as <- <-. destruct W1 as [n' W1]. destruct W as [n W].
  destruct (unshare_spec h' r' cols n' (wf_map _ _ _ W1) (wf_shr _ _ _ W1) (wf_cols _ _ _ W1)) as (r2 & h2 & E2 & _).
  exists r2, h2. split; [done|].
  rewrite (unshare_cells rt _ _ _ _ _ n' (wf_map _ _ _ W1) (wf_shr _ _ _ W1) (wf_cols _ _ _ W1) E2).
  destruct (unshare_spec h (d_raw d) [] n (wf_map _ _ _ W) (wf_shr _ _ _ W) (wf_cols _ _ _ W)) as
    (r1 & h1 & E1 & _ & _ & _ & _ & _ & Hs & _ & _ & _ & _ & _ & Ho & Hn & _).
  rewrite E in E1. injection E1 as <- <-. rewrite no_filter; [lia|]. intros k s Hk [Hx _]. simpl in Hx.
  unfold shared_cols in Hx. rewrite Hs, Ho in Hx. apply elem_of_difference in Hx as [_ Hx]. apply Hx.
  unfold unshare_set. rewrite decide_True by (by left). destruct (mp h (r_maps (d_raw d)) !! k) as [s0|] eqn:E0.
  - apply elem_of_names. destruct k as [k c]. by exists k, s0.
  - assert (Hk' : mp h' (r_maps r') !! k = Some s) by exact Hk. rewrite (Hn k E0) in Hk'. discriminate Hk'.
Qed.

(** One row of four. *)
Section wit.
Existing Instance ex_rt.
Definition co_view : dframe * heap := run_df (index_view ex_d [2%Z]) ex_h.
Definition co_det : dframe * heap := run_df (detached_view co_view.1 []) co_view.2.
Definition co_copy : dframe * heap := run_df (copy_df co_view.1) co_view.2.
End wit.
Lemma C108_refuted_main : exists (rt : GoRT) h d a b, wf h d /\ costs (copy_df d) h a /\ costs (detached_view d []) h b /\ a < b.
Proof.
  exists ex_rt, co_view.2, co_view.1, (total_cells co_copy.2 - total_cells co_view.2), (total_cells co_det.2 - total_cells co_view.2).
  split; [apply (wf_check_sound _ _ 4); by vm_compute|].
  split; [exists co_copy.1, co_copy.2; split; [by vm_compute|vm_compute; lia]|].
  split; [exists co_det.1, co_det.2; split; [by vm_compute|vm_compute; lia]|]. vm_compute. lia.
Qed.
Lemma C108_check_main : wf ex_h ex_d /\ num_alloc_rows (mp ex_h (r_maps (d_raw ex_d))) <= num_rows ex_d /\
  num_rows ex_d * num_columns (mp ex_h (r_maps (d_raw ex_d))) = 16 /\
  total_cells (run_df (detached_view (rt := ex_rt) ex_d ["a"]) ex_h).2 = total_cells ex_h + 4.
Proof. split; [exact ex_wf|]. split; [by vm_compute; lia|]. split; by vm_compute. Qed.
