(** C110 and C111: vectors and accesses. *)
From Verif Require Import M_VecDense.
From Verif Require Export P_WriteMain P_ReadMain.
From Verif Require Import P_Exec P_Read P_Share P_View3.
From stdpp Require Import strings list.
From Verif Require Import P_Base P_Check.

Lemma set_vec_arr s ws : forall h u h', set_vec s ws h = Ok (u, h') ->
  h_mask h' = h_mask h /\ h_map h' = h_map h /\ h_str h' = h_str h /\ h_shr h' = h_shr h /\
  length (h_arr h') = length (h_arr h) /\ forall a, a <> s_arr s -> h_arr h' !! a = h_arr h !! a.
Proof.
  induction ws as [|w ws IH]; intros h u h'; [by intros [= _ <-]|]. unfold set_vec. cbn [forM].
  intros (x & h1 & E1 & E2)%bind_ok. apply IH in E2 as (-> & -> & -> & -> & -> & E2).
  unfold sl_wr in E1. case_decide; [|done]. injection E1 as _ <-. simpl. rewrite insert_length.
  do 5 (split; [done|]). intros a Ha. rewrite E2 by done. simpl. by rewrite list_lookup_insert_ne.
Qed.
Lemma gather_cells h d n c s : wfn h d n -> mp h (r_maps (d_raw d)) !! (KFloat, c) = Some s ->
  gather s (inds d) h = Ok (pick (inds d) (sl_vals h s), h) /\ length (pick (inds d) (sl_vals h s)) = num_rows d.
Proof.
  intros W E. destruct (wfn_col _ _ _ _ _ W E) as (Hc & Hn & _).
  assert (Hr : Forall (fun i => i < length (sl_vals h s)) (inds d)).
  { rewrite (col_ok_vals_length _ _ _ Hc), Hn. apply (wf_rng _ _ _ W). }
  split; [by apply gather_ok|]. rewrite <- (wfn_inds_length _ _ _ W).
  assert (Hl : forall l, Forall (fun i => i < length (sl_vals h s)) l -> length (pick l (sl_vals h s)) = length l).
  { intros l Hl. by apply pick_length. }
  by apply Hl.
Qed.

Lemma C110_copy_main : forall (rt : GoRT) h d c col, wf h d -> t_cols (abs h d) !! (KFloat, c) = Some col -> col <> [] ->
  exists s h1, vec_copy d c h = Ok (s, h1) /\ sl_vals h1 s = col /\ preserved h h1 /\
    forall ws h2, set_vec s ws h1 = Ok (tt, h2) -> preserved h h2.
Proof.
  intros rt h d c col [n W] Hc Hne. simpl in Hc. rewrite lookup_fmap in Hc. apply fmap_Some in Hc as (s0 & Es & ->).
  destruct (gather_cells _ _ _ _ _ W Es) as [Eg Hl]. set (col := pick (inds d) (sl_vals h s0)) in *.
  unfold vec_copy. rewrite (bind_eq _ _ h s0 h).
  2: { unfold access, bind, get_mp. by rewrite Es. }
  rewrite (bind_eq _ _ _ _ _ Eg).
  set (s := Slice (length (h_arr h)) 0 (length col) (length col)).
  set (h1 := Heap (h_arr h ++ [col]) (h_mask h) (h_map h) (h_str h) (h_shr h)).
  rewrite (bind_eq _ _ h s h1) by done. exists s, h1. split.
  { unfold new_vec. rewrite decide_False; [done|]. simpl. destruct col; [done|]. simpl. lia. }
  assert (X : ext h h1). { split; simpl; try done. by eexists. }
  split. { unfold sl_vals, arr, s, h1. simpl. rewrite lookup_app_r, Nat.sub_diag by lia. simpl. rewrite drop_0. by apply firstn_all. }
  split; [by apply ext_preserved|]. intros ws h2 E. apply set_vec_arr in E as (E1 & E2 & E3 & E4 & E5 & E6). simpl in *.
  apply ext_preserved. split.
  - exists (drop (length (h_arr h)) (h_arr h2)). rewrite <- (take_drop (length (h_arr h)) (h_arr h2)) at 1. f_equal.
    apply list_eq. intros a. destruct (decide (a < length (h_arr h))) as [Ha|Ha].
    + rewrite lookup_take by lia. rewrite E6 by lia. by rewrite lookup_app_l.
    + rewrite lookup_ge_None_2, lookup_ge_None_2; [done|lia|]. rewrite take_length. lia.
  - by rewrite E2.
  - by rewrite E3.
  - by rewrite E4.
  - intros a. unfold marr. by rewrite E1.
Qed.
(** Contiguous dataframes: the vector is the column. *)
Lemma C110_shared_main : forall (rt : GoRT) h d c col, wf h d -> d_viewed d = false -> t_cols (abs h d) !! (KFloat, c) = Some col -> col <> [] ->
  exists s, vec_mem d c h = Ok (s, h) /\ sl_vals h s = col /\
    forall i v, sl_wr s i v h = set_cell KFloat d c (Z.of_nat i) v h.
Proof.
  intros rt h d c col W Hv Hc Hne. pose proof (vec_dense_spec h d c W) as Ev. rewrite Hc in Ev.
  destruct W as [n W]. simpl in Hc. rewrite lookup_fmap in Hc. apply fmap_Some in Hc as (s & Es & Ec).
  exists s. unfold vec_dense, access, bind, get_mp in Ev. rewrite Es in Ev. simpl in Ev. rewrite Hv in Ev. injection Ev as Ev.
  destruct (wfn_col _ _ _ _ _ W Es) as (Hok & Hn & _). destruct (wf_cont _ _ _ W Hv) as [Hi Hr].
  split.
  { unfold vec_mem. rewrite (bind_eq _ _ h s h) by (unfold access, bind, get_mp; by rewrite Es). rewrite Hv. unfold new_vec.
    rewrite decide_False; [done|]. rewrite <- (col_ok_vals_length _ _ _ Hok), Ev. destruct col; [done|]. simpl. lia. }
  split; [done|]. intros i v. unfold set_cell, access, acc_set, bind, get_mp, lift, ret. rewrite Es. unfold idx.
  rewrite decide_True by lia. rewrite Nat2Z.id, Hi. destruct (decide (i < num_rows d)) as [Hlt|Hge].
  - rewrite lookup_seq_lt by lia. done.
  - rewrite lookup_seq_ge by lia. unfold sl_wr. rewrite decide_False by lia. done.
Qed.
(** Other views: a copy. *)
Lemma C110_viewed_main : forall (rt : GoRT) h d c, d_viewed d = true -> is_Some (t_cols (abs h d) !! (KFloat, c)) ->
  vec_mem d c h = vec_copy d c h.
Proof.
  intros rt h d c Hv [col Hc]. simpl in Hc. rewrite lookup_fmap in Hc. apply fmap_Some in Hc as (s & Es & Ec).
  unfold vec_mem. rewrite (bind_eq _ _ h s h) by (unfold access, bind, get_mp; by rewrite Es). by rewrite Hv.
Qed.
Lemma C110_panics_main : forall (rt : GoRT) h d c, wf h d ->
  (t_cols (abs h d) !! (KFloat, c) = None \/ num_rows d = 0) -> vec_mem d c h = Panic /\ vec_copy d c h = Panic.
Proof.
  intros rt h d c [n W] H. destruct (mp h (r_maps (d_raw d)) !! (KFloat, c)) as [s|] eqn:Es.
  - destruct H as [H | H]. { simpl in H. rewrite lookup_fmap, Es in H. done. }
    destruct (gather_cells _ _ _ _ _ W Es) as [Eg Hl].
    assert (Ec : vec_copy d c h = Panic).
    { unfold vec_copy. rewrite (bind_eq _ _ h s h) by (unfold access, bind, get_mp; by rewrite Es). rewrite (bind_eq _ _ _ _ _ Eg).
      rewrite H in Hl. destruct (pick (inds d) (sl_vals h s)); [|done]. done. }
    split; [|done]. unfold vec_mem. rewrite (bind_eq _ _ h s h) by (unfold access, bind, get_mp; by rewrite Es).
    destruct (d_viewed d) eqn:Hv; [done|]. destruct (wf_cont _ _ _ W Hv) as [_ Hn]. destruct (wfn_col _ _ _ _ _ W Es) as (_ & Hs & _).
    unfold new_vec. rewrite decide_True by lia. done.
  - unfold vec_mem, vec_copy, access, bind, get_mp. rewrite Es. done.
Qed.

(** ** C111 *)
Inductive write_call :=
| WSet (k : kind) (d : dframe) (c : string) (row : Z) (v : val)
| WOverwrite (k : kind) (strs : bool) (d : dframe) (c : string) (vs : list val)
| WRaw (s : slice) (ws : list (nat * val)).
Definition call_write {rt : GoRT} (w : write_call) : M unit :=
  match w with
  | WSet k d c row v => set_cell k d c row v
  | WOverwrite k strs d c vs => let* _ := overwrite k strs d c vs in ret tt
  | WRaw s ws => set_vec s ws
  end.
Definition call_writes {rt : GoRT} (ws : list write_call) : M unit := forM ws call_write.
(** The columns to be overwritten exist and are not empty. *)
Definition overwrites_existing (h : heap) (w : write_call) : Prop :=
  match w with
  | WOverwrite k _ d c _ => exists s, mp h (r_maps (d_raw d)) !! (k, c) = Some s /\ s_len s <> 0
  | _ => True
  end.
Lemma write_loop_map s l : forall vs h u h', write_loop s l vs h = Ok (u, h') -> h_map h' = h_map h.
Proof.
  induction l as [|i l IH]; intros vs h u h'; [by destruct vs; intros [= _ <-]|]. destruct vs as [|v vs]; [done|]. cbn [write_loop].
  intros (x & h1 & E1 & E2)%bind_ok. rewrite (IH _ _ _ _ E2). unfold sl_wr in E1. case_decide; [|done]. by injection E1 as _ <-.
Qed.
Lemma call_write_map (rt : GoRT) w h u h' : overwrites_existing h w -> call_write w h = Ok (u, h') -> h_map h' = h_map h.
Proof.
  destruct w as [k d c row v|k strs d c vs|s ws]; simpl; intros Hx E.
  - unfold set_cell, acc_set, access in E. apply bind_ok in E as (s & h1 & E1 & E). apply bind_ok in E1 as (m & h2 & [= <- <-] & E1).
    destruct (_ !! _); [|done]. injection E1 as <- <-. apply bind_ok in E as (i & h2 & E2 & E). unfold lift in E2. destruct (idx _ _); [|done].
    injection E2 as _ <-. unfold sl_wr in E. case_decide; [|done]. by injection E as _ <-.
  - destruct Hx as (s & Hs & Hn). apply bind_ok in E as (d' & h1 & E & [= _ <-]). unfold overwrite in E.
    apply bind_ok in E as (m & h2 & [= <- <-] & E). cbv zeta in E. rewrite Hs in E. simpl in E. rewrite decide_False in E by done.
    apply bind_ok in E as (x & h2 & E & [= _ <-]). by apply write_loop_map in E.
  - by apply set_vec_arr in E as (_ & -> & _).
Qed.
Lemma C111_live_main : forall (rt : GoRT) ws k d c s row h h', Forall (overwrites_existing h) ws ->
  access k d c h = Ok (s, h) -> call_writes ws h = Ok (tt, h') ->
  acc_get d s row h' = get_cell k d c row h' /\ forall v, acc_set d s row v h' = set_cell k d c row v h'.
Proof.
  intros rt ws k d c s row h h' Hw Ha E.
  assert (Em : h_map h' = h_map h).
  { revert h Hw Ha E. induction ws as [|w ws IH]; intros h Hw Ha; [by intros [= <-]|]. unfold call_writes. cbn [forM].
    intros (x & h1 & E1 & E2)%bind_ok. apply Forall_cons in Hw as [Hw Hws]. apply (call_write_map rt) in E1; [|done]. rewrite <- E1.
    apply IH in E2; [done| |].
    - eapply Forall_impl; [exact Hws|]. intros w' Hx. destruct w'; simpl in *; try done. unfold mp in *. by rewrite E1.
    - unfold access, bind, get_mp, mp in *. rewrite E1. destruct (default ∅ (h_map h !! r_maps (d_raw d)) !! (k, c)); [|done]. by injection Ha as ->. }
  assert (Ha' : access k d c h' = Ok (s, h')).
  { unfold access, bind, get_mp, mp in *. rewrite Em. destruct (default ∅ (h_map h !! r_maps (d_raw d)) !! (k, c)); [|done]. by injection Ha as ->. }
  split; [|intros v]; unfold get_cell, set_cell; by rewrite (bind_eq _ _ _ _ _ Ha').
Qed.

Section wit.
Existing Instance ex_rt.
Definition vd_acc : slice := match access KInt ex_v "a" ex_vh with Ok (s, _) => s | Panic => nil_slice end.
Definition vd_un := run_raw (unshare (d_raw ex_v) []) ex_vh.
Definition vd_set : heap := run_unit (acc_set ex_v vd_acc 0 (VInt 70)) vd_un.2.
End wit.
(** After Unshare, an access made before it writes to the old data. *)
Lemma C111_stale_refuted_main : exists (rt : GoRT) h d k c s r' h1 h2 v, wf h d /\ access k d c h = Ok (s, h) /\
  unshare (d_raw d) [] h = Ok (r', h1) /\ acc_set d s 0 v h1 = Ok (tt, h2) /\
  t_cell (abs h2 (set_raw d r')) (k, c) 0 <> Some v /\ t_cell (abs h2 d) (k, c) 0 = Some v.
Proof.
  exists ex_rt, ex_vh, ex_v, KInt, "a", vd_acc, vd_un.1, vd_un.2, vd_set, (VInt 70).
  split; [apply (wf_check_sound _ _ 4); by vm_compute|]. split; [by vm_compute|]. split; [by vm_compute|]. split; [by vm_compute|].
  split; [intros H; vm_compute in H; discriminate H|by vm_compute].
Qed.
Definition vd_copy := match vec_copy ex_d "b" ex_h with Ok p => p | Panic => (nil_slice, heap0) end.
Lemma C110_check_main : wf ex_h ex_d /\ d_viewed ex_d = false /\ is_Some (t_cols (abs ex_h ex_d) !! (KFloat, "b")) /\
  vec_copy ex_d "b" ex_h = Ok vd_copy /\ length (sl_vals vd_copy.2 vd_copy.1) = 4 /\
  match set_vec vd_copy.1 [(0, VFloat f64_one); (3, VFloat f64_one)] vd_copy.2 with Ok (_, h2) => sl_vals h2 vd_copy.1 !! 3 = Some (VFloat f64_one) | Panic => False end.
Proof. split; [exact ex_wf|]. split; [done|]. split; [apply (bool_decide_unpack _); by vm_compute|]. split; [by vm_compute|]. split; by vm_compute. Qed.
Definition vd_ws : list write_call := [WSet KInt ex_v "a" 1 (VInt 8); WOverwrite KInt false ex_d "a" (VInt <$> [4; 5; 6; 7]%Z)].
Lemma C111_check_main : Forall (overwrites_existing ex_vh) vd_ws /\ access KInt ex_v "a" ex_vh = Ok (vd_acc, ex_vh) /\
  let h' := run_unit (call_writes (rt := ex_rt) vd_ws) ex_vh in
  call_writes (rt := ex_rt) vd_ws ex_vh = Ok (tt, h') /\ acc_get ex_v vd_acc 0 h' <> acc_get ex_v vd_acc 0 ex_vh.
Proof.
  split. { apply Forall_cons; split; [done|]. apply Forall_cons; split; [|done]. eexists. split; [vm_compute; reflexivity|vm_compute; lia]. }
  split; [by vm_compute|]. split; [by vm_compute|]. intros H. apply (f_equal (fun r => match r with Ok (v, _) => Some v | Panic => None end)) in H.
  vm_compute in H. discriminate H.
Qed.
