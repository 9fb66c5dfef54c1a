(** C109: the backing data. *)
From Verif Require Import M_Internals.
From Verif Require Export P_WriteMain P_ReadMain.
From Verif Require Import P_Exec.
From stdpp Require Import strings list.
From Verif Require Import P_Base P_Check.

Lemma C109_get_main : forall (rt : GoRT) h d k c row v h', wf h d -> get_cell k d c row h = Ok (v, h') ->
  exists j s, shared_index d row = Ok j /\ get_indices d !! Z.to_nat row = Some j /\
    col_data k d c h = Ok (s, h) /\ sl_vals h s !! j = Some v /\ j < s_len s.
Proof.
  intros rt h d k c row v h' [n W] E. unfold get_cell, access, acc_get in E. unfold col_data, shared_index, get_indices.
  apply bind_ok in E as (s & h1 & E1 & E). apply bind_ok in E1 as (m & h2 & [= <- <-] & E1).
  destruct (mp h (r_maps (d_raw d)) !! (k, c)) as [s'|] eqn:Es; [|done]. injection E1 as <- <-.
  apply bind_ok in E as (i & h2 & E2 & E). unfold lift in E2. destruct (idx (inds d) row) as [i'|] eqn:Ei; [|done]. injection E2 as <- <-.
  exists i', s'. split; [done|]. split; [by apply idx_ok in Ei as [_ ->]|].
  split; [rewrite (bind_eq _ _ h (mp h (r_maps (d_raw d))) h) by done; by rewrite Es|].
  unfold sl_rd in E. destruct (sl_vals h s' !! i') as [w|] eqn:Ew; [|done]. injection E as <- <-. split; [done|].
  apply lookup_lt_Some in Ew. unfold sl_vals in Ew. rewrite take_length in Ew. lia.
Qed.
Lemma C109_set_main : forall (rt : GoRT) h d k c row j s v, wf h d -> is_Some (t_cols (abs h d) !! (k, c)) ->
  shared_index d row = Ok j -> col_data k d c h = Ok (s, h) -> set_cell k d c row v h = sl_wr s j v h.
Proof.
  intros rt h d k c row j s v W Hc Hj Hs. unfold set_cell, access, acc_set, col_data in *.
  unfold bind, get_mp, lift, ret in *. simpl in Hc, Hs. rewrite lookup_fmap, fmap_is_Some in Hc. destruct Hc as [s' Es].
  rewrite Es in Hs |- *. injection Hs as <-. unfold shared_index in Hj. by rewrite Hj.
Qed.
(** What is written to the backing data is seen in all dataframes with that data
    that show the row, and nowhere else. *)
Lemma C109_seen_main : forall (rt : GoRT) h d k c j s v h' d' i, wf h d -> is_Some (t_cols (abs h d) !! (k, c)) ->
  col_data k d c h = Ok (s, h) -> kind_of v = k -> sl_wr s j v h = Ok (tt, h') ->
  wf h d' -> col_data k d' c h = Ok (s, h) -> is_Some (t_cols (abs h d') !! (k, c)) ->
  t_cell (abs h' d') (k, c) i = (if decide (get_indices d' !! i = Some j) then Some v else t_cell (abs h d') (k, c) i).
Proof.
  intros rt h d k c j s v h' d' i W Hc Hs Hk E W' Hs' Hc'.
  unfold col_data, bind, get_mp, ret in Hs, Hs'. simpl in Hc, Hc'. rewrite lookup_fmap, fmap_is_Some in Hc, Hc'.
  destruct Hc as [s1 Es]. destruct Hc' as [s2 Es']. rewrite Es in Hs. rewrite Es' in Hs'. injection Hs as ->. injection Hs' as ->.
  unfold sl_wr in E. case_decide as Hj; [|done]. injection E as <-. destruct W as [n W].
  destruct (wfn_col _ _ _ _ _ W Es) as (Hok & Hn & _). destruct Hok as (O1 & O2 & O3).
  assert (Hl : s_arr s < length (h_arr h)).
  { unfold arr in O2. destruct (h_arr h !! s_arr s) as [x|] eqn:Ex; [by apply lookup_lt_Some in Ex|]. simpl in O2. lia. }
  set (a := (s_arr s, s_off s + j)).
  assert (Ha : a.2 < length (arr h a.1)) by (simpl; lia).
  destruct (lookup_lt_is_Some_2 _ _ Ha) as [w Hw].
  assert (Hkw : kind_of w = k).
  { rewrite Forall_lookup in O3. apply (O3 j). rewrite lookup_take by lia. rewrite lookup_drop. exact Hw. }
  assert (X : wrt h (upd h a v)) by (apply (upd_wrt h a v w); [done|congruence]).
  change (set_arr h (s_arr s) (<[s_off s + j:=v]> (arr h (s_arr s)))) with (upd h a v).
  rewrite t_cell_abs by (by apply (wrt_wf h)). rewrite t_cell_abs by done. rewrite (wrt_cell_of _ _ _ _ _ X).
  unfold cell_of, get_indices. rewrite Es'. simpl. destruct (inds d' !! i) as [i'|] eqn:Ei; simpl; [|done].
  rewrite (upd_cell_val h a v) by done. destruct (decide (i' = j)) as [-> | Hne].
  - rewrite !decide_True; done.
  - rewrite decide_False by (unfold a; intros [= ?]; lia). rewrite decide_False by (by intros [= ?]). done.
Qed.
Lemma C109_missing_main : forall (rt : GoRT) h d k c, t_cols (abs h d) !! (k, c) = None ->
  col_data k d c h = Ok (nil_slice, h) /\ sl_vals h nil_slice = [] /\ access k d c h = Panic.
Proof.
  intros rt h d k c H. simpl in H. rewrite lookup_fmap, fmap_None in H.
  unfold col_data, access, bind, get_mp, ret. rewrite H. split; [done|]. split; [|done]. unfold sl_vals. by rewrite take_0.
Qed.
(** The masks that EmptyMask gives away are the first part of GetMask, unless
    masking is thread-safe. *)
Lemma C109_mask_main : forall (rt : GoRT) h d, wf h d -> d_mts d = false ->
  exists s, empty_mask d h = Ok (s, h) /\ s_arr s = s_arr (get_mask d) /\ s_off s = s_off (get_mask d) /\ s_len s = num_rows d /\
    num_rows d <= s_len (get_mask d).
Proof.
  intros rt h d [n W] Hm. unfold empty_mask, mask_prefix. rewrite Hm. destruct (wf_mask _ _ _ W) as [H1 H2].
  pose proof (wf_mlen _ _ _ W). rewrite decide_True by lia. eexists. split; [done|]. done.
Qed.

Section wit.
Existing Instance ex_rt.
Definition in_s : slice := match col_data KInt ex_v "a" ex_vh with Ok (s, _) => s | Panic => nil_slice end.
Definition in_h : heap := match sl_wr in_s 2 (VInt 50) ex_vh with Ok (_, h) => h | Panic => heap0 end.
End wit.
Lemma C109_check_main : wf ex_vh ex_v /\ is_Some (t_cols (abs ex_vh ex_v) !! (KInt, "a")) /\
  col_data KInt ex_v "a" ex_vh = Ok (in_s, ex_vh) /\ sl_wr in_s 2 (VInt 50) ex_vh = Ok (tt, in_h) /\
  2 ∈ get_indices ex_v /\ t_cols (abs ex_vh ex_v) !! (KInt, "zz") = None.
Proof.
  split; [apply (wf_check_sound _ _ 4); by vm_compute|]. split; [apply (bool_decide_unpack _); by vm_compute|].
  split; [by vm_compute|]. split; [by vm_compute|]. split; [apply (bool_decide_unpack _); by vm_compute|by vm_compute].
Qed.
