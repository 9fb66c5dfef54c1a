(** Structural operations: Alloc*, Rename, Drop, IntToFloats, BoolToFloats. *)
From Verif Require Export P_Detach.

(** Every dataframe stays well-formed. *)
Definition stable (h h' : heap) : Prop := forall d, wf h d -> wf h' d.
Global Instance stable_refl : Reflexive stable.
Proof. by intros h d. Qed.
Global Instance stable_trans : Transitive stable.
Proof. intros h1 h2 h3 H1 H2 d W. by apply H2, H1. Qed.
Lemma ext_stable h h' : ext h h' -> stable h h'.
Proof. intros H d W. by eapply ext_wf. Qed.
Lemma wrt_stable h h' : wrt h h' -> stable h h'.
Proof. intros H d W. by eapply wrt_wf. Qed.
Lemma preserved_stable h h' : preserved h h' -> stable h h'.
Proof. intros H d W. by apply H. Qed.

(** Apart from map object [l] and the contents of the string headers, only
    additions. *)
Record chg (l : nat) (h h' : heap) : Prop := {
  c_arr : h_arr h `prefix_of` h_arr h';
  c_mask : forall i, length (marr h i) <= length (marr h' i);
  c_str : length (h_str h) <= length (h_str h');
  c_shr : length (h_shr h) <= length (h_shr h');
  c_len : length (h_map h) <= length (h_map h');
  c_map : forall l', l' <> l -> l' < length (h_map h) -> mp h' l' = mp h l' }.
Lemma ext_chg l h h' : ext h h' -> chg l h h'.
Proof.
  intros H. pose proof H as []. split; try done.
  - by apply prefix_length.
  - by apply prefix_length.
  - intros l' _ Hl. by apply ext_mp.
Qed.
Lemma grow_chg l h h' : grow l h h' -> chg l h h'.
Proof.
  intros H. pose proof H as []. split; try done.
  - intros i. unfold marr. by rewrite g_mask.
  - by rewrite g_str.
  - by rewrite g_shr.
  - by rewrite g_len.
  - intros l' Hl _. by apply (grow_mp l).
Qed.
Lemma chg_trans l h1 h2 h3 : chg l h1 h2 -> chg l h2 h3 -> chg l h1 h3.
Proof.
  intros [] []. split; try lia.
  - by etrans.
  - intros i. etrans; eauto.
  - intros l' Hl Hlt. rewrite c_map1 by (done || lia). by apply c_map0.
Qed.
Lemma chg_arr l h h' a : chg l h h' -> a < length (h_arr h) -> arr h' a = arr h a.
Proof. intros [] H. by apply prefix_lookup_default. Qed.
Lemma chg_sl_vals l h h' k s : chg l h h' -> col_ok h k s -> sl_vals h' s = sl_vals h s.
Proof.
  intros H Hok. destruct (col_ok_arr_cases _ _ _ Hok) as [Hl|(Hl & _)].
  - unfold sl_vals. by rewrite (chg_arr _ _ _ _ H).
  - by rewrite !sl_vals_len0.
Qed.
Lemma chg_col_ok l h h' k s : chg l h h' -> col_ok h k s -> col_ok h' k s.
Proof.
  intros H Hok. destruct (col_ok_arr_cases _ _ _ Hok) as [Hl|(Hl & Hc & Ho)].
  - unfold col_ok. by rewrite (chg_arr _ _ _ _ H).
  - unfold col_ok. rewrite Hl, Hc, Ho. simpl. split; [lia|split; [lia|constructor]].
Qed.
Lemma chg_map_ok l h h' n m : chg l h h' -> map_ok h n m -> map_ok h' n m.
Proof. intros H Hm k s Hk. destruct (Hm k s Hk). split; [by eapply chg_col_ok|done]. Qed.

Lemma chg_wfn l h h' d n : chg l h h' -> wfn h d n ->
  (r_maps (d_raw d) = l -> map_ok h' n (mp h' l)) -> wfn h' d n.
Proof.
  intros H W Hm. destruct W. split; try done.
  - pose proof (c_len _ _ _ H). lia.
  - intros i Hi. specialize (wf_str i Hi). pose proof (c_str _ _ _ H). lia.
  - intros i Hi. specialize (wf_shr i Hi). pose proof (c_shr _ _ _ H). lia.
  - destruct (decide (r_maps (d_raw d) = l)) as [E|E].
    + rewrite E. by apply Hm.
    + rewrite (c_map _ _ _ H) by done. by eapply chg_map_ok.
  - destruct wf_mask. split; [done|]. etrans; [eassumption|]. apply (c_mask _ _ _ H).
Qed.
Lemma chg_stable l h h' : chg l h h' ->
  (forall n, map_ok h n (mp h l) -> map_ok h' n (mp h' l)) -> stable h h'.
Proof.
  intros H Hm d [n W]. exists n. eapply chg_wfn; [done|done|]. intros <-. apply Hm, W.
Qed.

Lemma prefix_ostr h h' o : h_str h `prefix_of` h_str h' -> valid_str h o -> ostr h' o = ostr h o.
Proof.
  intros Hp Hv. unfold ostr. destruct o as [i|]; [|done].
  unfold str. apply prefix_lookup_default; [done|by apply Hv].
Qed.

Lemma nar_ok h n m : map_ok h n m -> m <> ∅ -> num_alloc_rows m = n.
Proof.
  intros Hok Hne. unfold num_alloc_rows, nar_ord.
  assert (Hk : forall k s, first_kind k (map_to_list m) = Some s -> s_len s = n).
  { intros k s. unfold first_kind. destruct (head _) as [[k' s']|] eqn:E; [|done].
    intros [= <-]. apply head_Some_elem_of in E. apply elem_of_list_filter in E as [_ E].
    apply elem_of_map_to_list in E. by apply (Hok k' s'). }
  assert (Hn : forall k, first_kind k (map_to_list m) = None -> forall c, m !! (k, c) = None).
  { intros k. unfold first_kind. destruct (filter _ _) as [|p ps] eqn:E; [|done]. intros _ c.
    destruct (m !! (k, c)) as [s|] eqn:Es; [|done]. exfalso.
    apply elem_of_map_to_list in Es. assert (((k, c), s) ∈ filter (fun p : key * slice => p.1.1 = k) (map_to_list m)) as Hin.
    { apply elem_of_list_filter. done. }
    rewrite E in Hin. by apply elem_of_nil in Hin. }
  destruct (first_kind KObj _) eqn:E1; [by eapply Hk|].
  destruct (first_kind KFloat _) eqn:E2; [by eapply Hk|].
  destruct (first_kind KInt _) eqn:E3; [by eapply Hk|].
  destruct (first_kind KBool _) eqn:E4; [by eapply Hk|].
  exfalso. apply Hne. apply map_empty. intros [[] c]; by eapply Hn.
Qed.

Lemma forM_ext {A} (f g : A -> M unit) xs h : (forall x h, f x h = g x h) -> forM xs f h = forM xs g h.
Proof.
  intros H. revert h. induction xs as [|x xs IH]; intros h; simpl; [done|].
  unfold bind. rewrite H. destruct (g x h) as [[? ?]|]; [apply IH|done].
Qed.

(** ** a receiver whose maps changed *)
Lemma struct_wfn h d n r' h' : wfn h d n -> chg (r_maps r') h h' -> r_maps r' < length (h_map h') ->
  valid_str h' (r_strs r') -> valid_shr h' (r_shared r') -> map_ok h' n (mp h' (r_maps r')) ->
  wfn h' (set_raw d r') n.
Proof.
  intros W H H1 H2 H3 H4. destruct W. split; try done.
  destruct wf_mask. split; [done|]. etrans; [eassumption|]. apply (c_mask _ _ _ H).
Qed.
Lemma struct_stable h d n l h' : wfn h d n -> mp h (r_maps (d_raw d)) <> ∅ -> chg l h h' ->
  l = r_maps (d_raw d) \/ ext h h' -> map_ok h' n (mp h' l) -> stable h h'.
Proof.
  intros W Hne H [->|X] Hm; [|by apply ext_stable].
  eapply chg_stable; [done|]. intros n' Hn'.
  pose proof (nar_ok _ _ _ Hn' Hne) as E1.
  pose proof (nar_ok _ _ _ (wf_cols _ _ _ W) Hne) as E2. by rewrite <- E1, E2.
Qed.
Lemma abs_cols_ne h d : t_cols (abs h d) <> ∅ -> mp h (r_maps (d_raw d)) <> ∅.
Proof. intros H E. apply H. simpl. by rewrite E, fmap_empty. Qed.
Lemma abs_cols_lookup h d k : t_cols (abs h d) !! k =
  (fun s => pick (inds d) (sl_vals h s)) <$> mp h (r_maps (d_raw d)) !! k.
Proof. simpl. by rewrite lookup_fmap. Qed.
Lemma pick_replicate {A} ix n (x : A) : Forall (fun i => i < n) ix ->
  pick ix (replicate n x) = replicate (length ix) x.
Proof.
  induction 1 as [|i ix Hi H IH]; [done|]. rewrite pick_cons, IH.
  by rewrite lookup_replicate_2.
Qed.
Lemma kind_zero k : kind_of (zero_of k) = k.
Proof. by destruct k. Qed.
Lemma forall_replicate {A} (P : A -> Prop) n x : P x -> Forall P (replicate n x).
Proof. intros H. by apply Forall_replicate. Qed.

Section frame.
Context {rt : GoRT}.

(** ** Alloc* *)
Lemma alloc_cols_spec k r cols h : r_maps r < length (h_map h) -> valid_shr h (r_shared r) ->
  let m := mp h (r_maps r) in
  let n := num_alloc_rows m in
  exists r' h', alloc_cols k r cols h = Ok (r', h') /\
    r_maps r' < length (h_map h') /\ valid_shr h' (r_shared r') /\
    r_strs r' = r_strs r /\ r_enc r' = r_enc r /\ r_cpu r' = r_cpu r /\
    h_str h `prefix_of` h_str h' /\ chg (r_maps r') h h' /\
    (r_sharedMaps r = true -> cols <> [] -> ext h h' /\ r_maps r' = length (h_map h)) /\
    (r_sharedMaps r = false -> r' = r) /\
    (cols <> [] -> r_sharedMaps r' = false) /\
    (forall k', (k'.1 <> k \/ k'.2 ∉ cols) -> mp h' (r_maps r') !! k' = m !! k') /\
    (forall c, c ∈ cols -> exists s, mp h' (r_maps r') !! (k, c) = Some s /\
       fresh_col h h' s (replicate n (zero_of k))).
Proof.
  intros Hr Hv m n. unfold alloc_cols.
  destruct (bool_decide (cols = [])) eqn:Eb.
  { apply bool_decide_eq_true in Eb as ->. exists r, h.
    split; [reflexivity|]. do 6 (split; [done|]). split; [by apply ext_chg|].
    split; [done|]. split; [done|]. split; [done|]. split; [done|].
    intros c Hc. by apply elem_of_nil in Hc. }
  apply bool_decide_eq_false in Eb.
  destruct (own_maps_spec r h Hr Hv) as
    (r1 & h1 & E1 & A1 & A2 & A3 & A4 & A5 & A6 & A7 & A8 & A9 & A10 & A11 & A12).
  rewrite (bind_eq _ _ _ _ _ E1).
  rewrite (bind_eq _ _ h1 (mp h1 (r_maps r1)) h1) by done. rewrite A5. fold m n. cbv zeta.
  destruct (fill_spec (r_maps r1) (fun c => (k, c)) (fun _ => ret (replicate n (zero_of k)))
     (fun _ => replicate n (zero_of k)) cols h1) as (h2 & E2 & G2 & O2 & F2 & D2);
     [done|done|done|].
  assert (E2' : forM cols (fun c => let* s := make_slice k n in put_col (r_maps r1) (k, c) s) h1 = Ok (tt, h2)).
  { rewrite <- E2. apply forM_ext. intros c hh. by rewrite make_slice_lit. }
  rewrite (bind_eq _ _ _ _ _ E2'). exists r1, h2. split; [done|].
  split; [by rewrite (g_len _ _ _ G2)|].
  split; [intros l Hl; rewrite (g_shr _ _ _ G2); by apply A7|].
  do 3 (split; [done|]).
  split.
  { rewrite (g_str _ _ _ G2). apply A1. }
  split; [eapply chg_trans; [by apply ext_chg|by apply grow_chg]|].
  split.
  { intros Hs _. destruct (A11 Hs) as (B1 & B2 & B3). split; [|done].
    eapply grow_ext; [done|done|lia]. }
  split; [intros Hs; by destruct (A12 Hs)|].
  split; [done|].
  split.
  { intros k' Hk'. rewrite O2; [by rewrite A5|].
    intros (c & -> & Hc)%elem_of_list_fmap. simpl in Hk'. destruct Hk'; done. }
  intros c Hc. destruct (F2 c Hc) as (s & S1 & S2). exists s. split; [done|].
  eapply fresh_col_old; [done|]. by rewrite A2.
Qed.

Lemma t_alloc_lookup k cols t k' : t_cols (t_alloc k cols t) !! k' =
  if decide (k'.1 = k /\ k'.2 ∈ cols) then Some (replicate (t_rows t) (zero_of k))
  else t_cols t !! k'.
Proof.
  unfold t_alloc. simpl. destruct k' as [kk c]. simpl. rewrite lookup_union.
  destruct (decide _) as [[-> Hc]|Hn].
  - assert (E : (list_to_map ((fun c => ((k, c), replicate (t_rows t) (zero_of k))) <$> cols) : gmap key (list val)) !! (k, c)
      = Some (replicate (t_rows t) (zero_of k))).
    { induction cols as [|c' cols IH]; [by apply elem_of_nil in Hc|].
      simpl. destruct (decide (c = c')) as [->|Hne]; [by rewrite lookup_insert|].
      rewrite lookup_insert_ne by congruence. apply IH. set_solver. }
    rewrite E. by destruct (t_cols t !! (k, c)).
  - rewrite (not_elem_of_list_to_map_1 _ (kk, c)).
    + by destruct (t_cols t !! (kk, c)).
    + intros ([[k1 c1] col] & E & Hin)%elem_of_list_fmap. simpl in E. injection E as -> ->.
      apply elem_of_list_fmap in Hin as (c2 & [= -> -> _] & Hc). apply Hn. done.
Qed.

Lemma alloc_cols_df h d k cols : wf h d -> t_cols (abs h d) <> ∅ \/ num_rows d = 0 ->
  exists r' h', alloc_cols k (d_raw d) cols h = Ok (r', h') /\
    wf h' (set_raw d r') /\ abs h' (set_raw d r') = t_alloc k cols (abs h d) /\
    (t_cols (abs h d) <> ∅ -> stable h h') /\
    (r_sharedMaps (d_raw d) = true -> ext h h') /\ r_strs r' = r_strs (d_raw d).
Proof.
  intros [n W] Hne.
  destruct (alloc_cols_spec k (d_raw d) cols h) as
    (r' & h' & E & A1 & A2 & A3 & A4 & A5 & A6 & A7 & A8 & A9 & A9b & A10 & A11);
    [apply W|intros l Hl; by apply (wf_shr _ _ _ W)|].
  exists r', h'. split; [done|].
  set (m := mp h (r_maps (d_raw d))) in *.
  assert (Hnar : num_alloc_rows m = n \/ (m = ∅ /\ num_rows d = 0)).
  { destruct (decide (m = ∅)) as [Em|Em].
    - right. split; [done|]. destruct Hne as [Hne|]; [|done]. by apply abs_cols_ne in Hne.
    - left. eapply nar_ok; [|done]. apply W. }
  assert (Hlk : forall k' s, mp h' (r_maps r') !! k' = Some s ->
     (k'.1 = k /\ k'.2 ∈ cols /\ fresh_col h h' s (replicate (num_alloc_rows m) (zero_of k))) \/
     (~ (k'.1 = k /\ k'.2 ∈ cols) /\ m !! k' = Some s)).
  { intros [k' c] s Hs. destruct (decide (k' = k)) as [->|Hk].
    - destruct (decide (c ∈ cols)) as [Hc|Hc].
      + left. destruct (A11 c Hc) as (s' & S1 & S2). simpl. rewrite S1 in Hs. injection Hs as <-. done.
      + right. rewrite A10 in Hs by (by right). split; [|done]. simpl. tauto.
    - right. rewrite A10 in Hs by (by left). split; [|done]. simpl. tauto. }
  assert (Hok : map_ok h' (if decide (m = ∅) then 0 else n) (mp h' (r_maps r'))).
  { intros [k' c] s Hs. simpl. destruct (Hlk _ _ Hs) as [(H1 & H2 & H3)|(H1 & H2)].
    - split.
      + eapply fresh_col_ok; [done|]. simpl in H1. subst k'. apply forall_replicate, kind_zero.
      + destruct H3 as (_ & _ & H3 & _). rewrite H3, replicate_length.
        destruct (decide (m = ∅)) as [Em|Em]; [by rewrite Em|]. destruct Hnar as [|[]]; done.
    - destruct (wf_cols _ _ _ W _ _ H2) as [H3 H4]. split; [by eapply chg_col_ok|].
      rewrite decide_False; [done|]. intros Em. rewrite Em in H2. done. }
  assert (W' : wfn h (d) (if decide (m = ∅) then (if decide (num_rows d = 0) then 0 else n) else n)).
  { destruct (decide (m = ∅)) as [Em|]; [|done]. destruct (decide (num_rows d = 0)) as [E0|]; [|done].
    pose proof (wfn_inds_length _ _ _ W) as HL.
    destruct W. split; try done.
    - fold m. rewrite Em. apply map_Forall_empty.
    - rewrite E0 in HL. apply nil_length_inv in HL. by rewrite HL.
    - intros Hv. destruct (wf_cont Hv). split; [done|]. done. }
  assert (W2 : wfn h d (if decide (m = ∅) then 0 else n)).
  { destruct (decide (m = ∅)); [|done]. rewrite decide_True in W'; [done|].
    destruct Hnar as [Hn|[]]; [|done].
    destruct Hne as [Hne|]; [|done]. by apply abs_cols_ne in Hne. }
  split.
  { eexists. eapply struct_wfn; [exact W2|done|done| |done|done].
    rewrite A3. intros l Hl. pose proof (wf_str _ _ _ W l Hl). pose proof (c_str _ _ _ A7). lia. }
  split.
  { unfold abs. simpl. unfold t_alloc, t_with_cols. simpl. rewrite A3, A4, A5.
    rewrite (prefix_ostr _ _ _ A6 (wf_str _ _ _ W)). f_equal.
    apply map_eq. intros k'. pose proof (t_alloc_lookup k cols (abs h d) k') as Ht.
    unfold t_alloc in Ht. simpl in Ht. rewrite Ht. clear Ht. rewrite lookup_fmap. fold m.
    change (inds (set_raw d r')) with (inds d).
    destruct (decide (k'.1 = k /\ k'.2 ∈ cols)) as [[H1 H2]|H1].
    - destruct k' as [k' c]. simpl in *. subst k'. destruct (A11 c H2) as (s & -> & Hf). simpl.
      rewrite (fresh_col_vals _ _ _ _ Hf). f_equal.
      rewrite pick_replicate; [by rewrite (wfn_inds_length _ _ _ W)|].
      destruct Hnar as [->|[Em E0]]; [apply W|].
      pose proof (wfn_inds_length _ _ _ W) as HL. rewrite E0 in HL. apply nil_length_inv in HL. by rewrite HL.
    - rewrite A10 by (destruct (decide (k'.1 = k)); [right|left]; tauto).
      rewrite lookup_fmap. fold m. destruct (m !! k') as [s|] eqn:Es; [|done]. simpl. do 2 f_equal.
      eapply chg_sl_vals; [done|]. by apply (wf_cols _ _ _ W k'). }
  split.
  { intros Hc. pose proof (abs_cols_ne _ _ Hc) as Hm. fold m in Hm. rewrite decide_False in Hok by done.
    eapply struct_stable; [exact W|done|exact A7| |done].
    destruct (r_sharedMaps (d_raw d)) eqn:Es.
    - destruct cols as [|c cols]; [|right; by apply A8].
      left. unfold alloc_cols in E. simpl in E. by injection E as <- _.
    - left. by rewrite A9. }
  split; [|done].
  intros Hs. destruct cols as [|c cols]; [|by apply A8].
  unfold alloc_cols in E. simpl in E. injection E as _ <-. done.
Qed.
End frame.
