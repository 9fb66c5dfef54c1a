(** The statements of Prop_Write.v, proved. *)
From Verif Require Export P_Check P_Priv.

(** Concrete runs, used as witnesses below. *)
Section wit.
Existing Instance ex_rt.
Definition c16_v : dframe := (run_df (detached_view ex_d ["a"; "a"; "a"; "a"]) ex_h).1.
Definition c16_h : heap := (run_df (detached_view ex_d ["a"; "a"; "a"; "a"]) ex_h).2.
Definition run_raw (m : M raw) (h : heap) : raw * heap :=
  match m h with Ok p => p | Panic => (d_raw dummy, heap0) end.
Definition run_unit (m : M unit) (h : heap) : heap :=
  match m h with Ok p => p.2 | Panic => heap0 end.
Definition c18_drop_h : heap := run_unit (drop_cols (d_raw (view ex_d)) ["a"]) ex_h.
Definition c18_as_r := (run_raw (alloc_strings (d_raw (view ex_d)) ["t"]) ex_h).1.
Definition c18_as_h := (run_raw (alloc_strings (d_raw (view ex_d)) ["t"]) ex_h).2.
Definition c18_rn_r := (run_raw (rename (d_raw (view ex_d)) "s" "t") ex_h).1.
Definition c18_rn_h := (run_raw (rename (d_raw (view ex_d)) "s" "t") ex_h).2.
Definition c19_sc := (run_df (shallow_copy ex_d) ex_h).1.
Definition c19_h1 := (run_df (shallow_copy ex_d) ex_h).2.
Definition c19_cv := (run_df (column_view c19_sc ["a"]) c19_h1).1.
Definition c19_h2 := (run_df (column_view c19_sc ["a"]) c19_h1).2.
Definition c19_r1 := (run_raw (unshare (d_raw c19_cv) ["a"]) c19_h2).1.
Definition c19_h3 := (run_raw (unshare (d_raw c19_cv) ["a"]) c19_h2).2.
Definition c19_r2 := (run_raw (unshare (d_raw c19_sc) ["a"]) c19_h3).1.
Definition c19_h4 := (run_raw (unshare (d_raw c19_sc) ["a"]) c19_h3).2.
Definition c19_h5 := run_unit (set_cell KInt (set_raw c19_sc c19_r2) "a" 0 (VInt 77)) c19_h4.
Definition c22_e := (run_df (empty_df 2 1) heap0).1.
Definition c22_h := (run_df (empty_df 2 1) heap0).2.
Definition c38_r := (run_raw (bool_to_floats (d_raw ex_d) ["f"]) ex_h).1.
Definition c38_h := (run_raw (bool_to_floats (d_raw ex_d) ["f"]) ex_h).2.
Definition c39_r := (run_raw (rename (d_raw ex_d) "a" "a") ex_h).1.
Definition c39_h := (run_raw (rename (d_raw ex_d) "a" "a") ex_h).2.
Definition c67_d : dframe := set_raw ex_d (b_enc (d_raw ex_d) (Some 1)).
Definition c67_s := (run_df (shallow_copy c67_d) ex_h).1.
Definition c67_sh := (run_df (shallow_copy c67_d) ex_h).2.
Definition c67_c := (run_df (copy_df c67_d) ex_h).1.
Definition c67_ch := (run_df (copy_df c67_d) ex_h).2.
End wit.

Lemma get_cell_spec {rt : GoRT} h d k c row : wf h d -> (0 <= row)%Z ->
  get_cell k d c row h = match t_cell (abs h d) (k, c) (Z.to_nat row) with
                         | Some v => Ok (v, h) | None => Panic end.
Proof.
  intros W Hr. rewrite t_cell_abs by done. unfold get_cell, access, acc_get, cell_of.
  unfold bind at 1. unfold bind at 1. unfold get_mp. simpl.
  destruct (mp h (r_maps (d_raw d)) !! (k, c)) as [s|] eqn:E; simpl; [|done].
  unfold bind, lift, idx, ret. rewrite decide_True by lia.
  destruct (inds d !! Z.to_nat row) as [i|] eqn:Ei; simpl; [|done].
  destruct W as [n W]. destruct (wf_cols _ _ _ W _ _ E) as [Hc Hn].
  assert (Hi : i < n).
  { pose proof (wf_rng _ _ _ W) as HF. rewrite Forall_lookup in HF. by eapply HF. }
  unfold sl_rd. rewrite sl_vals_lookup by lia.
  destruct (col_ok_cell h k s i) as (v & Hv & _); [done|lia|].
  unfold cell_val in *. simpl in *. by rewrite Hv.
Qed.

Lemma C15_write_seen_where_shared_main : forall (rt : GoRT) (h : heap) (d : dframe) (k : kind)
    (c : string) (row : Z) (v : val),
  wf h d -> kind_of v = k ->
  match set_cell k d c row v h with
  | Ok (_, h') => exists a, (0 <= row)%Z /\ cell_of h d (k, c) (Z.to_nat row) = Some a /\
      get_cell k d c row h' = Ok (v, h') /\
      forall d2, wf h d2 -> wf h' d2 /\ same_shape (abs h d2) (abs h' d2) /\
        forall k2 j, t_cell (abs h' d2) k2 j =
          if decide (cell_of h d2 k2 j = Some a) then Some v else t_cell (abs h d2) k2 j
  | Panic => (row < 0 \/ Z.of_nat (num_rows d) <= row)%Z \/ t_cols (abs h d) !! (k, c) = None
  end.
Proof.
  intros rt h d k c row v W Hk. pose proof (set_cell_spec h d k c row v W Hk) as S.
  destruct (set_cell k d c row v h) as [[[] h']|]; [|done].
  destruct S as (a & Hr & Ha & _ & Hw & Hv). exists a. split; [done|]. split; [done|].
  assert (H2 : forall d2, wf h d2 -> wf h' d2 /\ same_shape (abs h d2) (abs h' d2) /\
        forall k2 j, t_cell (abs h' d2) k2 j =
          if decide (cell_of h d2 k2 j = Some a) then Some v else t_cell (abs h d2) k2 j).
  { intros d2 W2. split; [by eapply wrt_wf|]. split; [by apply wrt_shape|]. intros k2 j.
    rewrite !t_cell_abs by (done || by eapply wrt_wf). rewrite (wrt_cell_of _ _ _ _ _ Hw).
    destruct (cell_of h d2 k2 j) as [b|] eqn:E; simpl.
    - rewrite Hv. destruct (decide (b = a)), (decide (Some b = Some a)); congruence.
    - done. }
  split; [|done]. destruct (H2 d W) as (W' & _ & H3).
  rewrite get_cell_spec by done. rewrite H3, decide_True by done. done.
Qed.

(** Two columns of two dataframes have no cell in common. *)
Definition cells_apart (h : heap) (d1 : dframe) (k1 : key) (d2 : dframe) (k2 : key) : Prop :=
  forall j1 j2 a, cell_of h d1 k1 j1 = Some a -> cell_of h d2 k2 j2 <> Some a.

(** Writes to columns apart from column [k2] of [d2] do not change it. *)
Lemma writes_apart {rt : GoRT} h d ws h' d2 k2 : wf h d -> wf h d2 -> writes_typed ws ->
  do_writes d ws h = Ok (tt, h') ->
  (forall k, k ∈ (fun w : write_op => w.1.1) <$> ws -> cells_apart h d k d2 k2) ->
  t_cols (abs h' d2) !! k2 = t_cols (abs h d2) !! k2.
Proof.
  intros W W2 Ht E Hap. destruct (do_writes_spec d ws h h' W Ht E) as [Hw Hc].
  rewrite !abs_cols_lookup, (wrt_mp _ _ _ Hw).
  destruct (mp h (r_maps (d_raw d2)) !! k2) as [s|] eqn:Es; [|done]. simpl. f_equal.
  destruct W2 as [n W2]. destruct (wf_cols _ _ _ W2 _ _ Es) as [Hok Hn].
  pose proof (wf_rng _ _ _ W2) as HF.
  assert (forall l, (forall i, i ∈ l -> i ∈ inds d2) -> pick l (sl_vals h' s) = pick l (sl_vals h s)) as HH.
  { induction l as [|i l IH]; intros Hl; [done|].
    rewrite Forall_forall in HF. assert (Hi : i < n) by (apply HF, Hl; set_solver).
    assert (sl_vals h' s !! i = sl_vals h s !! i) as Ei.
    { rewrite !sl_vals_lookup by lia. apply (Hc (s_arr s, s_off s + i)).
      intros k j Hk Hc'. assert (Hi2 : i ∈ inds d2) by (apply Hl; set_solver).
      apply elem_of_list_lookup in Hi2 as [j2 Hj2].
      apply (Hap k Hk j j2 _ Hc'). unfold cell_of. rewrite Es. simpl. by rewrite Hj2. }
    rewrite !pick_cons, Ei, IH by set_solver. done. }
  apply HH. done.
Qed.

Lemma old_slices h h' d0 k0 : wf h d0 -> ext h h' ->
  forall s, mp h' (r_maps (d_raw d0)) !! k0 = Some s -> s_arr s < length (h_arr h) \/ s_cap s = 0.
Proof.
  intros [n W] X s Hs. rewrite (ext_mp _ _ _ X) in Hs by apply W.
  destruct (wf_cols _ _ _ W _ _ Hs) as [Hc _]. destruct Hc as (H1 & H2 & _).
  destruct (decide (s_arr s < length (h_arr h))); [by left|right].
  assert (arr h (s_arr s) = []) as E. { unfold arr. rewrite lookup_ge_None_2; [done|lia]. }
  rewrite E in H2. simpl in H2. lia.
Qed.

Lemma cells_apart_old h h' v k d0 k0 : young_col h h' v k -> wf h d0 -> ext h h' ->
  cells_apart h' v k d0 k0.
Proof.
  intros Hy W X j1 j2 a. unfold cell_of.
  destruct (mp h' (r_maps (d_raw v)) !! k) as [s|] eqn:E; simpl; [|done].
  destruct (inds v !! j1) as [x1|]; simpl; [|done]. intros [= <-].
  destruct (mp h' (r_maps (d_raw d0)) !! k0) as [s0|] eqn:E0; simpl; [|done].
  destruct (inds d0 !! j2) as [i|] eqn:Ei; simpl; [|done]. intros [= H1 H2].
  apply Hy in E. destruct (old_slices h h' d0 k0 W X _ E0) as [?|Hz]; [lia|].
  destruct W as [n W]. rewrite (ext_mp _ _ _ X) in E0 by apply W.
  destruct (wf_cols _ _ _ W _ _ E0) as [(? & ? & _) Hn].
  pose proof (wf_rng _ _ _ W) as HF. rewrite Forall_lookup in HF. specialize (HF _ _ Ei). lia.
Qed.
Lemma cells_apart_sym h d1 k1 d2 k2 : cells_apart h d1 k1 d2 k2 -> cells_apart h d2 k2 d1 k1.
Proof. intros H j1 j2 a H1 H2. by apply (H j2 j1 a). Qed.

(** Columns named in [cols] are detached, whatever set Unshare works on. *)
Lemma detached_cols {rt : GoRT} h d cols h' v : wf h d -> detached_view d cols h = Ok (v, h') ->
  forall k, (k.2 ∈ cols \/ cols = []) -> young_col h h' v k.
Proof.
  intros W E k Hk. destruct (detached_view_spec h d cols W) as
    (v2 & h2 & E2 & X & W2 & A & _ & _ & _ & Hy & Hn).
  rewrite E in E2. injection E2 as <- <-.
  destruct (decide (k.2 ∈ unshare_set (d_raw d) (mp h (r_maps (d_raw d))) cols)) as [Hi|Hi]; [auto|].
  intros s Hs. rewrite Hn in Hs by done. exfalso. apply Hi. unfold unshare_set.
  case_decide as Hd.
  - apply elem_of_names. destruct k. eauto.
  - destruct Hk as [Hk| ->]; [by apply elem_of_list_to_set|]. tauto.
Qed.

Lemma C16_detached_view_isolates_main : forall (rt : GoRT) (h : heap) (d : dframe) (cols : list string),
  wf h d ->
  exists v h', detached_view d cols h = Ok (v, h') /\ wf h' v /\ abs h' v = abs h d /\
    preserved h h' /\
    (forall k, k.2 ∈ cols \/ cols = [] -> forall d0 k0, wf h d0 -> cells_apart h' v k d0 k0) /\
    (forall ws h2, writes_typed ws ->
       Forall (fun w : write_op => w.1.1.2 ∈ cols \/ cols = []) ws ->
       do_writes v ws h' = Ok (tt, h2) ->
       forall d0, wf h d0 -> wf h2 d0 /\ abs h2 d0 = abs h d0) /\
    (forall d0 ws h2, wf h d0 -> writes_typed ws -> do_writes d0 ws h' = Ok (tt, h2) ->
       forall k, k.2 ∈ cols \/ cols = [] -> t_cols (abs h2 v) !! k = t_cols (abs h d) !! k).
Proof.
  intros rt h d cols W. destruct (detached_view_spec h d cols W) as
    (v & h' & E & X & W2 & A & _ & _ & _ & _ & _).
  pose proof (detached_cols h d cols h' v W E) as Hy.
  exists v, h'. split; [done|]. split; [done|]. split; [done|].
  split; [by apply ext_preserved|].
  assert (Hap : forall k, k.2 ∈ cols \/ cols = [] -> forall d0 k0, wf h d0 -> cells_apart h' v k d0 k0).
  { intros k Hk d0 k0 W0. apply (cells_apart_old h); auto. }
  split; [done|]. split.
  - intros ws h2 Ht Hws E2 d0 W0. assert (W0' : wf h' d0) by (by eapply ext_wf).
    destruct (do_writes_spec v ws h' h2 W2 Ht E2) as [Hw Hc].
    split; [by eapply wrt_wf|]. rewrite <- (ext_abs _ _ d0 X W0).
    apply wrt_abs; [done|done|]. intros k0 j0 a Ha. apply Hc. intros k j Hk Hc2.
    apply elem_of_list_fmap in Hk as (w & -> & Hw2). rewrite Forall_forall in Hws.
    eapply (Hap w.1.1 (Hws _ Hw2) d0 k0 W0); eauto.
  - intros d0 ws h2 W0 Ht E2 k Hk. rewrite <- A. assert (W0' : wf h' d0) by (by eapply ext_wf).
    apply (writes_apart h' d0 ws); [done|done|done|done|].
    intros k0 _. apply cells_apart_sym. auto.
Qed.

Lemma C16_other_columns_shared_main : forall (rt : GoRT) (h : heap) (d : dframe) (cols : list string) v h',
  wf h d -> detached_view d cols h = Ok (v, h') ->
  cols <> [] -> length cols <> size (t_cols (abs h d)) ->
  forall k j, k.2 ∉ cols -> cell_of h' v k j = cell_of h d k j.
Proof.
  intros rt h d cols v h' W E Hne Hlen k j Hk.
  destruct (detached_view_spec h d cols W) as
    (v2 & h2 & E2 & X & W2 & A & Hi & _ & _ & Hy & Hn).
  rewrite E in E2. injection E2 as <- <-. unfold cell_of. rewrite Hi, Hn; [done|].
  unfold unshare_set. rewrite decide_False; [by rewrite elem_of_list_to_set|].
  intros [?|Hl]; [done|]. apply Hlen. rewrite Hl. simpl. by rewrite map_size_fmap.
Qed.

Lemma C16_other_columns_refuted_main : exists (rt : GoRT) (h : heap) (d : dframe) cols v h' k j,
  wf h d /\ cols <> [] /\ detached_view d cols h = Ok (v, h') /\ k.2 ∉ cols /\
  is_Some (cell_of h d k j) /\ cell_of h' v k j <> cell_of h d k j.
Proof.
  exists ex_rt, ex_h, ex_d, ["a"; "a"; "a"; "a"], c16_v, c16_h, (KFloat, "b"), 0.
  split; [exact ex_wf|]. split; [done|]. split; [by vm_compute|].
  split; [by apply (bool_decide_unpack _); vm_compute|].
  split; [by apply (bool_decide_unpack _); vm_compute|]. by vm_compute.
Qed.

Lemma C17_copy_equal_independent_main : forall (rt : GoRT) (h : heap) (d : dframe),
  wf h d ->
  exists v h', copy_df d h = Ok (v, h') /\ wf h' v /\ d_viewed v = false /\
    inds v = seq 0 (num_rows d) /\
    t_rows (abs h' v) = t_rows (abs h d) /\ t_cols (abs h' v) = t_cols (abs h d) /\
    t_strs (abs h' v) = t_strs (abs h d) /\ t_cpu (abs h' v) = t_cpu (abs h d) /\
    preserved h h' /\
    (forall k d0 k0, wf h d0 -> cells_apart h' v k d0 k0) /\
    (forall ws h2, writes_typed ws -> do_writes v ws h' = Ok (tt, h2) ->
       forall d0, wf h d0 -> wf h2 d0 /\ abs h2 d0 = abs h d0) /\
    (forall d0 ws h2, wf h d0 -> writes_typed ws -> do_writes d0 ws h' = Ok (tt, h2) ->
       wf h2 v /\ abs h2 v = abs h' v) /\
    (forall os h2 v2, sruns h' v os h2 v2 ->
       wf h2 v2 /\ forall d0, wf h d0 -> wf h2 d0 /\ abs h2 d0 = abs h d0).
Proof.
  intros rt h d W. destruct (copy_df_spec h d W) as
    (v & h' & E & X & W2 & V & A & M & I & S & Hy & _).
  exists v, h'. do 3 (split; [done|]).
  split; [unfold inds; rewrite I; unfold ilist, mk_ind; simpl; by rewrite firstn_all|].
  rewrite A. do 4 (split; [done|]). split; [by apply ext_preserved|].
  assert (Hap : forall k d0 k0, wf h d0 -> cells_apart h' v k d0 k0).
  { intros k d0 k0 W0. apply (cells_apart_old h); auto. }
  split; [done|]. split; [|split].
  - intros ws h2 Ht E2 d0 W0. assert (W0' : wf h' d0) by (by eapply ext_wf).
    destruct (do_writes_spec v ws h' h2 W2 Ht E2) as [Hw Hc].
    split; [by eapply wrt_wf|]. rewrite <- (ext_abs _ _ d0 X W0).
    apply wrt_abs; [done|done|]. intros k0 j0 a Ha. apply Hc. intros k j Hk Hc2.
    eapply (Hap k d0 k0 W0); eauto.
  - intros d0 ws h2 W0 Ht E2. assert (W0' : wf h' d0) by (by eapply ext_wf).
    destruct (do_writes_spec d0 ws h' h2 W0' Ht E2) as [Hw Hc].
    split; [by eapply wrt_wf|]. rewrite <- A.
    apply wrt_abs; [done|done|]. intros k0 j0 a Ha. apply Hc. intros k j Hk Hc2.
    eapply (Hap k0 d0 k W0); eauto.
  - intros os h2 v2 R.
    destruct (sruns_spec h h' v os h2 v2 R W2 X) as [W3 X3]; [right; lia|].
    split; [done|]. intros d0 W0. split; [by eapply ext_wf|by apply ext_abs].
Qed.

Lemma C18_view_structure_partial_main : forall (rt : GoRT) (h : heap) (d : dframe) os h' v',
  wf h d -> sruns h (view d) os h' v' ->
  wf h' v' /\ forall d0, wf h d0 -> wf h' d0 /\ abs h' d0 = abs h d0.
Proof.
  intros rt h d os h' v' W R.
  destruct (sruns_spec h h (view d) os h' v' R) as [W2 X];
    [by apply wf_view|done|by left|].
  split; [done|]. intros d0 W0. split; [by eapply ext_wf|by apply ext_abs].
Qed.

Lemma C18_drop_refuted_main : exists (h : heap) (d : dframe) cols h',
  wf h d /\ drop_cols (d_raw (view d)) cols h = Ok (tt, h') /\
  t_cols (abs h' d) !! (KInt, "a") <> t_cols (abs h d) !! (KInt, "a").
Proof.
  exists ex_h, ex_d, ["a"], c18_drop_h. split; [exact ex_wf|].
  split; by vm_compute.
Qed.
Lemma C18_alloc_strings_refuted_main : exists (rt : GoRT) (h : heap) (d : dframe) cols r' h',
  wf h d /\ alloc_strings (d_raw (view d)) cols h = Ok (r', h') /\
  t_strs (abs h' d) <> t_strs (abs h d).
Proof.
  exists ex_rt, ex_h, ex_d, ["t"], c18_as_r, c18_as_h. split; [exact ex_wf|].
  split; [by vm_compute|]. by apply (bool_decide_unpack _); vm_compute.
Qed.
Lemma C18_rename_string_refuted_main : exists (rt : GoRT) (h : heap) (d : dframe) old new r' h',
  wf h d /\ rename (d_raw (view d)) old new h = Ok (r', h') /\
  t_strs (abs h' d) <> t_strs (abs h d).
Proof.
  exists ex_rt, ex_h, ex_d, "s", "t", c18_rn_r, c18_rn_h. split; [exact ex_wf|].
  split; [by vm_compute|]. by apply (bool_decide_unpack _); vm_compute.
Qed.

Lemma C19_unshare_private_partial_main : forall (rt : GoRT) (h : heap) (v : dframe) (cols : list string),
  wf h v -> (forall c, c ∈ cols -> c ∈ shared_cols h (d_raw v)) ->
  exists r' h', unshare (d_raw v) cols h = Ok (r', h') /\ wf h' (set_raw v r') /\
    abs h' (set_raw v r') = abs h v /\ preserved h h' /\
    forall ws h2, writes_typed ws -> Forall (fun w : write_op => w.1.1.2 ∈ cols) ws ->
      do_writes (set_raw v r') ws h' = Ok (tt, h2) ->
      forall d0, wf h d0 ->
        (r_sharedMaps (d_raw v) = true \/ r_maps (d_raw d0) <> r_maps (d_raw v)) ->
        abs h2 d0 = abs h d0.
Proof.
  intros rt h v cols W Hsh. destruct (unshare_df h v cols W) as
    (r' & h' & E & P & W2 & A & Hy & Hs1 & Hs2 & C).
  exists r', h'. do 4 (split; [done|]).
  assert (Hy2 : forall k, k.2 ∈ cols -> young_col h h' (set_raw v r') k).
  { intros k Hk. destruct (decide (k.2 ∈ unshare_set (d_raw v) (mp h (r_maps (d_raw v))) cols)) as [Hi|Hi];
      [by apply Hy; auto|].
    intros s Hs. exfalso. apply Hi. unfold unshare_set. case_decide as Hd.
    - assert (is_Some (t_cols (abs h v) !! k)) as Hsome.
      { rewrite <- A, abs_cols_lookup, Hs. eauto. }
      rewrite abs_cols_lookup in Hsome. apply elem_of_names.
      destruct (mp h (r_maps (d_raw v)) !! k) eqn:Ek; [destruct k; eauto|by destruct Hsome].
    - by apply elem_of_list_to_set. }
  intros ws h2 Ht Hws E2 d0 W0 Hd0.
  destruct (P d0 W0) as [W0' A0]. rewrite <- A0.
  eapply (do_writes_young h h' (set_raw v r') ws h2 d0); try done.
  - rewrite Forall_forall in *. intros w Hw. by apply Hy2, Hws.
  - intros k j a. unfold cell_of. destruct W0 as [n W0].
    assert (mp h' (r_maps (d_raw d0)) = mp h (r_maps (d_raw d0))) as Em.
    { destruct (r_sharedMaps (d_raw v)) eqn:Es.
      - destruct (Hs1 eq_refl) as [X _]. apply (ext_mp _ _ _ X). apply W0.
      - apply (c_map _ _ _ C); [|apply W0]. rewrite (Hs2 eq_refl). naive_solver. }
    rewrite Em. destruct (mp h (r_maps (d_raw d0)) !! k) as [s|] eqn:Es; simpl; [|done].
    destruct (inds d0 !! j) as [i|] eqn:Ei; simpl; [|done]. intros [= <-]. simpl.
    destruct (wf_cols _ _ _ W0 _ _ Es) as [Hc Hn].
    pose proof (wf_rng _ _ _ W0) as HF. rewrite Forall_lookup in HF. specialize (HF _ _ Ei).
    destruct (col_ok_cell h k.1 s i Hc) as (? & _ & _ & ?); [lia|done].
Qed.

Lemma C19_after_shallow_copy_main : forall (rt : GoRT) (h : heap) (d : dframe) (cols : list string),
  wf h d ->
  exists v h1 r' h', shallow_copy d h = Ok (v, h1) /\ unshare (d_raw v) cols h1 = Ok (r', h') /\
    wf h' (set_raw v r') /\ preserved h h' /\
    t_cols (abs h' (set_raw v r')) = t_cols (abs h d) /\
    forall ws h2, writes_typed ws ->
      Forall (fun w : write_op => w.1.1.2 ∈ cols \/ cols = []) ws ->
      do_writes (set_raw v r') ws h' = Ok (tt, h2) ->
      forall d0, wf h d0 -> abs h2 d0 = abs h d0.
Proof.
  intros rt h d cols W. destruct (shallow_copy_spec h d W) as
    (v & h1 & E & X & Ea & Wv & A & M & L & Em & Es & Hs & _).
  destruct (unshare_df h1 v cols Wv) as
    (r' & h' & E2 & P & W2 & A2 & Hy & Hs1 & Hs2 & C).
  exists v, h1, r', h'. do 3 (split; [done|]).
  assert (P0 : preserved h h').
  { intros d0 W0. destruct (P d0) as [? ?]; [by eapply ext_wf|]. split; [done|].
    rewrite <- (ext_abs _ _ d0 X W0). done. }
  split; [done|]. split; [by rewrite A2, A|].
  assert (Hsc : shared_cols h1 (d_raw v) = names (mp h1 (r_maps (d_raw v)))).
  { unfold shared_cols. by rewrite Hs, Es, Em. }
  assert (Hy2 : forall k, (k.2 ∈ cols \/ cols = []) -> young_col h1 h' (set_raw v r') k).
  { intros k Hk s Hsk.
    assert (Hin : k.2 ∈ names (mp h1 (r_maps (d_raw v)))).
    { assert (is_Some (t_cols (abs h1 v) !! k)) as Hsome.
      { rewrite <- A2, abs_cols_lookup, Hsk. eauto. }
      rewrite abs_cols_lookup in Hsome. apply elem_of_names.
      destruct (mp h1 (r_maps (d_raw v)) !! k) eqn:Ek; [destruct k; eauto|by destruct Hsome]. }
    eapply Hy; [|by rewrite Hsc|done]. unfold unshare_set. case_decide as Hd; [done|].
    apply elem_of_list_to_set. tauto. }
  intros ws h2 Ht Hws E3 d0 W0.
  assert (W01 : wf h1 d0) by (by eapply ext_wf).
  destruct (P0 d0 W0) as [W0' A0]. rewrite <- A0.
  eapply (do_writes_young h1 h' (set_raw v r') ws h2 d0); try done.
  - rewrite Forall_forall in *. intros w Hw. by apply Hy2, Hws.
  - intros k j a. unfold cell_of. pose proof W0 as [n W0n].
    assert (mp h' (r_maps (d_raw d0)) = mp h (r_maps (d_raw d0))) as Emm.
    { pose proof (wf_map _ _ _ W0n).
      rewrite (c_map _ _ _ C); [apply (ext_mp _ _ _ X); lia| |lia].
      rewrite (Hs2 Hs), M. lia. }
    rewrite Emm. destruct (mp h (r_maps (d_raw d0)) !! k) as [s|] eqn:Esk; simpl; [|done].
    destruct (inds d0 !! j) as [i|] eqn:Ei; simpl; [|done]. intros [= <-]. simpl.
    destruct (wf_cols _ _ _ W0n _ _ Esk) as [Hc Hn].
    pose proof (wf_rng _ _ _ W0n) as HF. rewrite Forall_lookup in HF. specialize (HF _ _ Ei).
    destruct (col_ok_cell h k.1 s i Hc) as (? & _ & _ & ?); [lia|]. rewrite Ea. done.
Qed.

(** sc := df.ShallowCopy(); v := sc.ColumnView("a"); v.Unshare("a");
    sc.Unshare("a"); sc.Ints("a").Set(0, 77) *)
Lemma C19_unshare_refuted_main : exists (rt : GoRT) h d sc h1 v h2 r1 h3 r2 h4 h5 x,
  wf h d /\ shallow_copy d h = Ok (sc, h1) /\ column_view sc ["a"] h1 = Ok (v, h2) /\
  unshare (d_raw v) ["a"] h2 = Ok (r1, h3) /\ unshare (d_raw sc) ["a"] h3 = Ok (r2, h4) /\
  set_cell KInt (set_raw sc r2) "a" 0 (VInt x) h4 = Ok (tt, h5) /\
  t_cell (abs h d) (KInt, "a") 0 <> Some (VInt x) /\
  t_cell (abs h5 d) (KInt, "a") 0 = Some (VInt x).
Proof.
  exists ex_rt, ex_h, ex_d, c19_sc, c19_h1, c19_cv, c19_h2, c19_r1, c19_h3, c19_r2, c19_h4, c19_h5, 77%Z.
  split; [exact ex_wf|]. repeat (split; [by vm_compute|]). by vm_compute.
Qed.

Lemma C22_overwrite_existing_main : forall (rt : GoRT) (h : heap) (d : dframe) (k : kind)
    (strs : bool) (c : string) (vs : list val),
  wf h d -> is_Some (t_cols (abs h d) !! (k, c)) -> num_rows d <> 0 ->
  Forall (fun v => kind_of v = k) vs ->
  match overwrite k strs d c vs h with
  | Ok (d', h') => num_rows d <= length vs /\ d' = d /\
      (NoDup (inds d) -> t_cols (abs h' d) !! (k, c) = Some (take (num_rows d) vs)) /\
      forall d2, wf h d2 -> wf h' d2 /\ same_shape (abs h d2) (abs h' d2) /\
        forall k2 j,
          (NoDup (inds d) -> forall i a, cell_of h d2 k2 j = Some a -> cell_of h d (k, c) i = Some a ->
             t_cell (abs h' d2) k2 j = vs !! i) /\
          ((forall i a, cell_of h d2 k2 j = Some a -> cell_of h d (k, c) i <> Some a) ->
             t_cell (abs h' d2) k2 j = t_cell (abs h d2) k2 j)
  | Panic => length vs < num_rows d
  end.
Proof.
  intros rt h d k strs c vs W Hsome Hnr Hv. pose proof W as [n Wn].
  rewrite abs_cols_lookup in Hsome.
  destruct (mp h (r_maps (d_raw d)) !! (k, c)) as [s|] eqn:Es; [|by destruct Hsome].
  destruct (wf_cols _ _ _ Wn _ _ Es) as [Hc Hn].
  assert (s_len s <> 0).
  { rewrite Hn. pose proof (wf_rng _ _ _ Wn) as HF. unfold num_rows in Hnr.
    destruct (inds d) as [|i l] eqn:Ei.
    - exfalso. apply Hnr. assert (length (inds d) = 0) as Hl by (by rewrite Ei).
      rewrite (wfn_inds_length _ _ _ Wn) in Hl. done.
    - apply Forall_cons_1 in HF as [? _]. lia. }
  rewrite (overwrite_existing h d n k strs c vs s Wn Es) by done.
  pose proof (write_column_spec h d n k c s vs Wn Es Hv) as S.
  destruct (write_loop s (inds d) vs h) as [[[] h']|] eqn:E; [|done].
  destruct S as (Hl & Hw & Ho & Hin). split; [done|]. split; [done|].
  split; [intros Hnd; by eapply written_column|].
  intros d2 W2. split; [by eapply wrt_wf|]. split; [by apply wrt_shape|]. intros k2 j.
  assert (W2' : wf h' d2) by (by eapply wrt_wf).
  rewrite !t_cell_abs by done. rewrite (wrt_cell_of _ _ _ _ _ Hw). split.
  - intros Hnd i a Ha Hi. rewrite Ha. simpl.
    unfold cell_of in Hi. rewrite Es in Hi. simpl in Hi.
    destruct (inds d !! i) as [x|] eqn:Ex; simpl in Hi; [|done]. injection Hi as <-.
    destruct (Hin i x Ex) as (b & v & Hb & Hlw & Hbv).
    unfold cell_of in Hb. rewrite Es in Hb. simpl in Hb. rewrite Ex in Hb. simpl in Hb.
    injection Hb as <-. rewrite Hbv. symmetry. by eapply last_write_nodup.
  - intros Hno. destruct (cell_of h d2 k2 j) as [a|] eqn:Ea; simpl; [|done].
    apply Ho. intros i. by apply Hno.
Qed.

Lemma C22_overwrite_missing_main : forall (rt : GoRT) (h : heap) (d : dframe) (k : kind)
    (strs : bool) (c : string) (vs : list val),
  wf h d -> t_cols (abs h d) !! (k, c) = None -> t_cols (abs h d) <> ∅ \/ num_rows d = 0 ->
  (strs = true -> k = KObj) -> Forall (fun v => kind_of v = k) vs ->
  match overwrite k strs d c vs h with
  | Ok (d', h') => num_rows d <= length vs /\ wf h' d' /\
      (NoDup (inds d) -> abs h' d' = (if strs then t_mark {[c]} else id)
         (t_with_cols (abs h d) (<[(k, c) := take (num_rows d) vs]> (t_cols (abs h d)))))
  | Panic => length vs < num_rows d
  end.
Proof.
  intros rt h d k strs c vs W Hn Hne Hs Hv.
  pose proof (overwrite_create h d k strs c vs W Hne Hs Hv) as H.
  destruct (overwrite k strs d c vs h) as [[d' h']|].
  - destruct H as (? & ? & _ & _ & ? & _); [|done]. left.
    rewrite abs_cols_lookup in Hn. by destruct (_ !! (k, c)).
  - apply H. left. rewrite abs_cols_lookup in Hn. by destruct (_ !! (k, c)).
Qed.

(** EmptyDataFrame(2).OverwriteInts("a", [1 2]) panics although two values are
    given. *)
Lemma C22_overwrite_missing_refuted_main : exists (rt : GoRT) h d k c vs,
  wf h d /\ Forall (fun v => kind_of v = k) vs /\ num_rows d <= length vs /\
  overwrite k false d c vs h = Panic.
Proof.
  exists ex_rt, c22_h, c22_e, KInt, "a", [VInt 1; VInt 2].
  split; [apply (wf_check_sound _ _ 2); by vm_compute|].
  split; [by repeat constructor|]. split; by vm_compute.
Qed.

Lemma C23_zero_mask_main : forall (rt : GoRT) (h : heap) (d : dframe), wf h d ->
  exists s h', zero_mask d h = Ok (s, h') /\ msl_vals h' s = replicate (num_rows d) false /\
    preserved h h' /\ h_arr h' = h_arr h.
Proof.
  intros rt h d W. destruct (zero_mask_spec h d W) as (s & h' & ? & ? & ? & ? & ? & ?).
  by exists s, h'.
Qed.
Lemma C23_empty_mask_main : forall (rt : GoRT) (h : heap) (d : dframe), wf h d ->
  exists s h', empty_mask d h = Ok (s, h') /\ length (msl_vals h' s) = num_rows d /\
    preserved h h' /\ h_arr h' = h_arr h.
Proof.
  intros rt h d W. destruct (empty_mask_spec h d W) as (s & h' & ? & ? & ? & ? & Hok & Hl).
  exists s, h'. split; [done|]. split; [|done].
  unfold msl_vals. rewrite take_length, drop_length. destruct Hok as [? ?]. lia.
Qed.

Lemma C38_int_to_floats_main : forall (rt : GoRT) (h : heap) (d : dframe) (cols : list string),
  wf h d -> NoDup cols -> (forall c, c ∈ cols -> is_Some (t_cols (abs h d) !! (KInt, c))) ->
  exists r' h', int_to_floats (d_raw d) cols h = Ok (r', h') /\ wf h' (set_raw d r') /\
    abs h' (set_raw d r') = foldl (fun t c => t_to_float KInt c t) (abs h d) cols /\
    (forall d0, wf h d0 -> wf h' d0).
Proof.
  intros rt h d cols W H1 H2.
  destruct (int_to_floats_spec h d cols W H1 H2) as (r' & h' & ? & ? & ? & ? & _).
  by exists r', h'.
Qed.
Lemma C38_conversion_columns_main : forall k cols t, NoDup cols ->
  let t' := foldl (fun t c => t_to_float k c t) t cols in
  k <> KFloat ->
  (forall c x, c ∈ cols -> t_cols t !! (k, c) = Some x ->
     t_cols t' !! (KFloat, c) = Some (val_num <$> x) /\ t_cols t' !! (k, c) = None) /\
  (forall kk, kk.2 ∉ cols \/ (kk.1 <> k /\ kk.1 <> KFloat) -> t_cols t' !! kk = t_cols t !! kk) /\
  t_rows t' = t_rows t /\ t_strs t' = t_strs t.
Proof.
  intros k cols. induction cols as [|c cols IH]; intros t Hnd t' Hk.
  - split; [intros c x Hc; by apply elem_of_nil in Hc|]. done.
  - apply NoDup_cons in Hnd as [Hc Hnd]. subst t'. simpl.
    destruct (IH (t_to_float k c t) Hnd Hk) as (I1 & I2 & I3 & I4).
    assert (Hother : forall kk, kk.2 <> c \/ (kk.1 <> k /\ kk.1 <> KFloat) ->
       t_cols (t_to_float k c t) !! kk = t_cols t !! kk).
    { intros [k1 c1] Hkk. unfold t_to_float. simpl. destruct (t_cols t !! (k, c)); [|done].
      rewrite lookup_insert_ne, lookup_delete_ne; naive_solver. }
    split; [|split; [|split]].
    + intros c1 x Hc1 Hx. apply elem_of_cons in Hc1 as [->|Hc1].
      * rewrite !I2 by (by left). unfold t_to_float. simpl. rewrite Hx. split.
        -- by rewrite lookup_insert.
        -- rewrite lookup_insert_ne by congruence. by rewrite lookup_delete.
      * apply I1; [done|]. rewrite Hother; [done|]. left. simpl. set_solver.
    + intros kk Hkk. rewrite I2 by set_solver. apply Hother. set_solver.
    + by rewrite I3.
    + by rewrite I4.
Qed.
Lemma C38_bool_to_floats_partial_main : forall (rt : GoRT) (h : heap) (d : dframe) (cols : list string),
  wf h d -> NoDup cols -> (forall c, c ∈ cols -> is_Some (t_cols (abs h d) !! (KBool, c))) ->
  exists r' h', bool_to_floats (d_raw d) cols h = Ok (r', h') /\ wf h' (set_raw d r') /\
    abs h' (set_raw d r') = foldl (fun t c => t_bool_float c t) (abs h d) cols /\
    (forall d0, wf h d0 -> wf h' d0).
Proof.
  intros rt h d cols W H1 H2.
  destruct (bool_to_floats_spec h d cols W H1 H2) as (r' & h' & ? & ? & ? & ? & _).
  by exists r', h'.
Qed.
Lemma C38_bool_to_floats_refuted_main : exists (rt : GoRT) h d c r' h',
  wf h d /\ is_Some (t_cols (abs h d) !! (KBool, c)) /\
  bool_to_floats (d_raw d) [c] h = Ok (r', h') /\
  is_Some (t_cols (abs h' (set_raw d r')) !! (KBool, c)).
Proof.
  exists ex_rt, ex_h, ex_d, "f", c38_r, c38_h. split; [exact ex_wf|].
  split; [by apply (bool_decide_unpack _); vm_compute|].
  split; [by vm_compute|]. by apply (bool_decide_unpack _); vm_compute.
Qed.

Lemma C39_rename_moves_partial_main : forall (rt : GoRT) (h : heap) (d : dframe) (old new : string),
  wf h d -> old <> new ->
  match rename (d_raw d) old new h with
  | Ok (r', h') => exists k col, rename_col (abs h d) old = Some (k, col) /\
      wf h' (set_raw d r') /\ abs h' (set_raw d r') = t_rename k old new (abs h d) /\
      (forall d0, wf h d0 -> wf h' d0)
  | Panic => forall k, t_cols (abs h d) !! (k, old) = None
  end.
Proof.
  intros rt h d old new W Hne. pose proof (rename_spec h d old new W Hne) as H.
  destruct (rename (d_raw d) old new h) as [[r' h']|].
  - destruct H as (k & col & ? & ? & ? & ? & _). eauto 6.
  - unfold rename_col in H. intros k. destruct k;
    destruct (t_cols (abs h d) !! (KFloat, old)), (t_cols (abs h d) !! (KObj, old)),
      (t_cols (abs h d) !! (KInt, old)), (t_cols (abs h d) !! (KBool, old)); done.
Qed.
Lemma C39_rename_columns_main : forall k old new t col, old <> new ->
  t_cols t !! (k, old) = Some col ->
  t_cols (t_rename k old new t) !! (k, new) = Some col /\
  t_cols (t_rename k old new t) !! (k, old) = None /\
  (forall kk, kk <> (k, old) -> kk <> (k, new) ->
     t_cols (t_rename k old new t) !! kk = t_cols t !! kk).
Proof.
  intros k old new t col Hne Hc. unfold t_rename. simpl. rewrite Hc. split; [|split].
  - by rewrite lookup_insert.
  - rewrite lookup_insert_ne by congruence. by rewrite lookup_delete.
  - intros kk H1 H2. by rewrite lookup_insert_ne, lookup_delete_ne.
Qed.
Lemma C39_rename_same_refuted_main : exists (rt : GoRT) h d c r' h',
  wf h d /\ is_Some (t_cols (abs h d) !! (KInt, c)) /\ rename (d_raw d) c c h = Ok (r', h') /\
  t_cols (abs h' (set_raw d r')) !! (KInt, c) = None.
Proof.
  exists ex_rt, ex_h, ex_d, "a", c39_r, c39_h. split; [exact ex_wf|].
  split; [by apply (bool_decide_unpack _); vm_compute|]. by vm_compute.
Qed.

(** ShallowCopy and Copy drop the text encoding. *)
Lemma C67_copies_keep_encoding_refuted_main : exists (rt : GoRT) h d s h1 c h2,
  wf h d /\ shallow_copy d h = Ok (s, h1) /\ copy_df d h = Ok (c, h2) /\
  t_enc (abs h1 s) <> t_enc (abs h d) /\ t_enc (abs h2 c) <> t_enc (abs h d).
Proof.
  exists ex_rt, ex_h, c67_d, c67_s, c67_sh, c67_c, c67_ch.
  split; [apply (wf_check_sound _ _ 4); by vm_compute|].
  split; [by vm_compute|]. split; [by vm_compute|]. split; by vm_compute.
Qed.
