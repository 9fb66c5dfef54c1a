(** Detaching float columns and updating them in place. *)
From Verif Require Export M_Auto Spec_Auto P_OneHotMain.

(** How often row [j] is shown. *)
Definition reps (d : dframe) (j : nat) : nat := length (filter (fun i => inds d !! j = Some i) (inds d)).

Lemma imap_VFloat_len n f col : length (repeat_floats n f col) = length col.
Proof. unfold repeat_floats. apply imap_length. Qed.
Lemma t_update_n_cell n cols g t k j : t_cell (t_update_n n cols g t) k j =
  if decide (k.1 = KFloat /\ k.2 ∈ cols) then (fun v => VFloat (Nat.iter (n j) (g k.2) (the_float v))) <$> t_cell t k j else t_cell t k j.
Proof.
  unfold t_cell, t_update_n. simpl. rewrite map_lookup_imap. destruct (t_cols t !! k) as [col|]; simpl.
  - destruct (decide _); [|done]. unfold repeat_floats. by rewrite list_lookup_imap.
  - by destruct (decide _).
Qed.
Lemma t_update_n_dom n cols g t k : is_Some (t_cols (t_update_n n cols g t) !! k) <-> is_Some (t_cols t !! k).
Proof.
  unfold t_update_n. simpl. rewrite map_lookup_imap. destruct (t_cols t !! k); simpl; [split; intros _; by eexists|done].
Qed.
Lemma t_update_n_shape n cols g t : same_shape t (t_update_n n cols g t).
Proof.
  split; [done|]. split; [|done]. apply set_eq. intros k. rewrite !elem_of_dom. apply iff_sym. first [apply t_update_n_dom|apply iff_sym, t_update_n_dom].
Qed.
Lemma t_update_n_ok n cols g t : t_ok t -> t_ok (t_update_n n cols g t).
Proof.
  intros H k col. unfold t_update_n. simpl. rewrite map_lookup_imap. destruct (t_cols t !! k) as [x|] eqn:E; [|done].
  intros [= <-]. destruct (H k x E) as [H1 H2]. destruct (decide _) as [[Hk _]|]; [|done].
  rewrite imap_VFloat_len. split; [done|]. apply Forall_forall. intros v Hv. unfold repeat_floats in Hv.
  apply elem_of_lookup_imap in Hv as (i & y & -> & _). by rewrite Hk.
Qed.
Lemma t_update_n_other n cols g t k : k.1 <> KFloat \/ k.2 ∉ cols -> t_cols (t_update_n n cols g t) !! k = t_cols t !! k.
Proof.
  intros H. unfold t_update_n. simpl. rewrite map_lookup_imap. destruct (t_cols t !! k); [|done]. simpl.
  rewrite decide_False; [done|]. intros [H1 H2]. by destruct H.
Qed.
Lemma t_update_n_in n cols g t c : c ∈ cols ->
  t_cols (t_update_n n cols g t) !! (KFloat, c) = repeat_floats n (g c) <$> t_cols t !! (KFloat, c).
Proof.
  intros H. unfold t_update_n. simpl. rewrite map_lookup_imap. destruct (t_cols t !! (KFloat, c)); [|done]. simpl.
  by rewrite decide_True.
Qed.
Lemma iter_up f n v : kind_of v = KFloat -> Nat.iter n (up f) v = VFloat (Nat.iter n f (the_float v)).
Proof.
  intros Hk. induction n as [|n IH]; [by destruct v|]. change (up f (Nat.iter n (up f) v) = VFloat (f (Nat.iter n f (the_float v)))).
  by rewrite IH.
Qed.

Lemma hits_reps h d n k s j i : wfn h d n -> mp h (r_maps (d_raw d)) !! k = Some s -> inds d !! j = Some i ->
  hits h d k (sl_addr s i) = reps d j.
Proof.
  intros W Hs Hj. rewrite (hits_inds _ _ _ _ _ _ W Hs). unfold reps. f_equal. apply list_filter_iff. intros i'. rewrite Hj. split.
  - intros E. unfold sl_addr in E. f_equal. assert (s_off s + i' = s_off s + i) by congruence. lia.
  - by intros [= ->].
Qed.
Lemma reps_pos d j : j < length (inds d) -> 1 <= reps d j.
Proof.
  intros Hj. destruct (lookup_lt_is_Some_2 _ _ Hj) as [i Hi]. unfold reps.
  destruct (filter _ _) as [|x l] eqn:E; [|simpl; lia]. exfalso.
  assert (i ∈ filter (fun i => inds d !! j = Some i) (inds d)) as H; [|rewrite E in H; by apply elem_of_nil in H].
  apply elem_of_list_filter. split; [done|]. by eapply elem_of_list_lookup_2.
Qed.

Section prep.
Context {rt : GoRT}.

Lemma updated_abs_n h h' d g cols : wf h d -> NoDup cols -> own_cells h d (list_to_set cols) ->
  wrt h h' -> (forall a, cell_val h' a = fold_up h d g cols a <$> cell_val h a) ->
  abs h' d = t_update_n (reps d) (list_to_set cols) g (abs h d).
Proof.
  intros W Hnd Hown Hw Hc. assert (W' : wf h' d) by (by eapply wrt_wf).
  apply table_ext.
  - apply t_update_n_ok. by apply abs_ok.
  - by apply abs_ok.
  - destruct (wrt_shape h h' d Hw) as (A1 & A2 & A3 & A4 & A5).
    destruct (t_update_n_shape (reps d) (list_to_set cols) g (abs h d)) as (B1 & B2 & B3 & B4 & B5). unfold same_shape. rewrite A2, B2. done.
  - intros k j. rewrite t_update_n_cell, !t_cell_abs by done. rewrite (wrt_cell_of _ _ _ _ _ Hw).
    destruct (cell_of h d k j) as [a|] eqn:Ea; simpl; [|by destruct (decide _)]. rewrite Hc.
    destruct (decide (k.1 = KFloat /\ k.2 ∈ (list_to_set cols : gset string))) as [[Hk Hin]|Hk].
    + destruct k as [k c]. simpl in *. subst k. destruct (cell_of_valid _ _ _ _ _ W Ea) as (_ & v & Hv & Hkv). rewrite Hv. simpl. f_equal.
      rewrite <- iter_up by done. assert (Hin' : c ∈ cols) by set_solver. rewrite (fold_up_one _ _ _ _ _ _ c); [|done|done|].
      * f_equal. pose proof Ea as Ea'. unfold cell_of in Ea'. destruct W as [n W].
        destruct (_ !! (KFloat, c)) as [s|] eqn:Es; [|done]. simpl in Ea'.
        destruct (inds d !! j) as [i|] eqn:Ei; [|done]. injection Ea' as <-. by eapply (hits_reps h d n).
      * intros c' j' Hc' Hne Hx. assert ((KFloat, c) = (KFloat, c')) by (eapply (Hown c' (KFloat, c)); [set_solver|exact Hx|exact Ea]). congruence.
    + destruct (cell_of_valid _ _ _ _ _ W Ea) as (_ & v & Hv & Hkv). rewrite Hv. simpl. f_equal. apply fold_up_none.
      intros c j' Hin Hx. assert (k = (KFloat, c)) as -> by (eapply (Hown c k); [set_solver|exact Hx|exact Ea]).
      apply Hk. split; [done|]. simpl. set_solver.
Qed.

(** DetachedView once more: the detached columns have cells of their own. *)
Lemma detached_view_own h d cols : wf h d ->
  let cs := unshare_set (d_raw d) (mp h (r_maps (d_raw d))) cols in
  exists v h', detached_view d cols h = Ok (v, h') /\ ext h h' /\ wf h' v /\ abs h' v = abs h d /\ inds v = inds d /\ d_ind v = d_ind d /\
    own_cells h' v cs /\ (forall k, k.2 ∈ cs -> young_col h h' v k).
Proof.
  intros W cs. destruct (detached_view_spec h d cols W) as (v & h' & E & X & Wv & Ea & Ei & _ & _ & Hy & Ho). fold cs in Hy, Ho.
  exists v, h'. do 5 (split; [done|]). 
  destruct W as [n W]. unfold detached_view in E.
  destruct (unshare_viewed_spec h (d_raw (view d)) cols n) as
    (r' & h2 & E2 & _ & A1 & A2 & A3 & A4 & A5 & A6 & A7 & A8 & A9 & A10 & A11);
    [apply (wf_map _ _ _ W)|exact (wf_shr _ _ _ W)|apply (wf_cols _ _ _ W)|done|].
  rewrite (bind_eq _ _ _ _ _ E2) in E. injection E as <- <-.
  change (unshare_set (d_raw (view d)) (mp h (r_maps (d_raw (view d)))) cols) with cs in *.
  change (mp h (r_maps (d_raw (view d)))) with (mp h (r_maps (d_raw d))) in *.
  split; [done|]. split; [|done].
  intros c k j1 j2 a Hc H1 H2. unfold cell_of in H1, H2.
  destruct (mp h2 (r_maps (d_raw (set_raw d r'))) !! (KFloat, c)) as [s1|] eqn:E1; [|done].
  destruct (mp h2 (r_maps (d_raw (set_raw d r'))) !! k) as [s2|] eqn:Ek; [|done]. simpl in H1, H2.
  destruct (inds (set_raw d r') !! j1) as [i1|] eqn:Ej1; [|done].
  destruct (inds (set_raw d r') !! j2) as [i2|] eqn:Ej2; [|done]. simpl in H1, H2.
  destruct (decide (k = (KFloat, c))) as [|Hne]; [done|]. exfalso.
  assert (Harr : s_arr s1 = s_arr s2) by congruence.
  destruct (decide (k.2 ∈ cs)) as [Hk|Hk].
  - revert Harr. eapply (A11 (KFloat, c) k); [exact Hc|exact Hk|congruence|exact E1|exact Ek].
  - pose proof (Hy (KFloat, c) Hc s1 E1) as Hy1. rewrite Ho in Ek by done.
    destruct (wf_cols _ _ _ W k s2 Ek) as [Hok Hn]. destruct (col_ok_arr_cases _ _ _ Hok) as [Hl|(Hl & _)]; [lia|].
    assert (i2 < n); [|lia]. apply elem_of_list_lookup_2 in Ej2. exact (proj1 (Forall_forall _ _) (wf_rng _ _ _ W) i2 Ej2).
Qed.

(** Updates of columns that are young and have cells of their own. *)
Definition detached (h : heap) (hv : heap) (v : dframe) (F : gset string) : Prop :=
  ext h hv /\ wf hv v /\ own_cells hv v F /\ forall c, c ∈ F -> young_col h hv v (KFloat, c).
Lemma update_detached h hv v F g cols : detached h hv v F -> NoDup cols -> (forall c, c ∈ cols -> c ∈ F) ->
  match forM cols (fun c => update_column (g c) v c) hv with
  | Ok (_, h') => detached h h' v F /\ abs h' v = t_update_n (reps v) (list_to_set cols) g (abs hv v) /\
      (forall c, c ∈ cols -> is_Some (t_cols (abs hv v) !! (KFloat, c)))
  | Panic => exists c, c ∈ cols /\ t_cols (abs hv v) !! (KFloat, c) = None
  end.
Proof.
  intros (X & W & Hown & Hy) Hnd HF. pose proof (update_columns_spec g v cols hv W) as H.
  destruct (forM cols _ hv) as [[[] h']|]; [|done]. destruct H as (H1 & Hw & Hc). split.
  - split; [|split; [by eapply wrt_wf|split]].
    + eapply ext_wrt_young; [exact X|exact Hw|]. intros a Ha. rewrite Hc.
      rewrite (option_fmap_ext _ (fun x => x)); [by destruct (cell_val hv a)|]. intros x.
      apply fold_up_none. intros c j Hcc Hx. unfold cell_of in Hx.
      destruct (mp hv (r_maps (d_raw v)) !! (KFloat, c)) as [s|] eqn:Es; [|done]. simpl in Hx.
      destruct (inds v !! j); [|done]. injection Hx as <-. simpl in Ha. specialize (Hy c (HF c Hcc) s Es). lia.
    + intros c k j1 j2 a Hcc. rewrite !(wrt_cell_of _ _ _ _ _ Hw). by apply Hown.
    + intros c Hcc s Hs. apply (Hy c Hcc). unfold mp in *. destruct Hw. congruence.
  - split; [|done]. apply updated_abs_n; [done|done| |done|done].
    intros c k j1 j2 a Hcc. apply Hown. apply HF. set_solver.
Qed.
End prep.
