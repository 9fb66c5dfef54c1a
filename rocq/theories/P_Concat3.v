(** ColumnCopyConcat and ColumnSmartConcat. *)
From Verif Require Export P_Concat2.

Section frame.
Context {rt : GoRT}.

(** [v], in heap [h'], is a copy of [d], in heap [h]. *)
Record copied (h h' : heap) (d v : dframe) : Prop := {
  cp_wf : wfn h' v (num_rows d);
  cp_abs : abs h' v = Table (num_rows d) (t_cols (abs h d)) (t_strs (abs h d)) None (t_cpu (abs h d));
  cp_view : d_viewed v = false;
  cp_ind : d_ind v = mk_ind (seq 0 (num_rows d));
  cp_young : forall k, young_col h h' v k }.

Lemma copied_ext h h' h'' d v : copied h h' d v -> ext h' h'' -> copied h h'' d v.
Proof.
  intros [H1 H2 H3 H4 H5] X. split; try done.
  - by eapply ext_wfn.
  - rewrite <- H2. apply ext_abs; [done|by eexists].
  - intros k s Hs. rewrite (ext_mp _ _ _ X) in Hs by apply H1. by apply (H5 k).
Qed.

Lemma mk_ind_inds v n : d_ind v = mk_ind (seq 0 n) -> inds v = seq 0 n.
Proof. intros E. unfold inds. rewrite E. unfold ilist. simpl. by rewrite take_ge. Qed.

(** Different copies do not share arrays. *)
Definition arrays_of (h : heap) (v : dframe) (a : nat) : Prop :=
  exists k s, mp h (r_maps (d_raw v)) !! k = Some s /\ s_arr s = a /\ s_len s <> 0.

Lemma copies_spec : forall dfs h0 h, ext h0 h -> Forall (wf h0) dfs ->
  exists vs h', mapM_df copy_df dfs h = Ok (vs, h') /\ ext h h' /\
    Forall2 (fun d v => copied h0 h' d v) dfs vs /\
    Forall (fun v => forall k, young_col h h' v k) vs /\
    (forall v k1 k2 s1 s2, v ∈ vs -> k1 <> k2 -> mp h' (r_maps (d_raw v)) !! k1 = Some s1 ->
        mp h' (r_maps (d_raw v)) !! k2 = Some s2 -> s_arr s1 <> s_arr s2) /\
    (forall i j v w k1 k2 s1 s2, i < j -> vs !! i = Some v -> vs !! j = Some w ->
        mp h' (r_maps (d_raw v)) !! k1 = Some s1 -> mp h' (r_maps (d_raw w)) !! k2 = Some s2 ->
        s_len s1 <> 0 -> s_arr s1 < s_arr s2).
Proof.
  induction dfs as [|d dfs IH]; intros h0 h X HW.
  - exists [], h. split; [done|]. split; [done|]. split; [constructor|]. split; [constructor|].
    split; [intros v k1 k2 s1 s2 Hv; by apply elem_of_nil in Hv|]. by intros i j v w k1 k2 s1 s2 _ Hv.
  - apply Forall_cons in HW as [Hw HW]. cbn [mapM_df].
    destruct (copy_df_spec h d) as (v & h1 & E1 & X1 & W1 & V1 & A1 & M1 & I1 & S1 & Y1 & _ & _ & D1).
    { by eapply ext_wf. }
    rewrite (bind_eq _ _ _ _ _ E1).
    destruct (IH h0 h1) as (vs & h2 & E2 & X2 & F2 & Y2 & D2 & L2); [by etrans|done|].
    rewrite (bind_eq _ _ _ _ _ E2).
    pose proof (prefix_length _ _ (e_arr _ _ X1)) as La1.
    pose proof (prefix_length _ _ (e_arr _ _ X)) as La0.
    assert (Hc1 : copied h0 h1 d v).
    { rewrite (ext_abs _ _ _ X Hw) in A1. split; try done.
      - destruct W1 as [n W1]. destruct (wf_cont _ _ _ W1 V1) as [_ Hn].
        assert (num_rows v = num_rows d) as Hnr by (unfold num_rows; by rewrite I1; simpl; rewrite seq_length).
        by rewrite <- Hnr, Hn.
      - intros k s Hs. apply Y1 in Hs. lia. }
    assert (Hv2 : mp h2 (r_maps (d_raw v)) = mp h1 (r_maps (d_raw v))).
    { apply (ext_mp _ _ _ X2). apply Hc1. }
    exists (v :: vs), h2. split; [done|]. split; [by etrans|]. split; [|split; [|split]].
    + constructor; [by eapply copied_ext|done].
    + constructor.
      * intros k s Hs. rewrite Hv2 in Hs. by apply (Y1 k).
      * eapply Forall_impl; [exact Y2|]. simpl. intros w Hy k s Hs. apply Hy in Hs. lia.
    + intros w k1 k2 s1 s2 [->|Hin]%elem_of_cons Hne; [rewrite Hv2; by apply D1|by apply D2].
    + intros [|i] [|j] v' w k1 k2 s1 s2 Hij Hvi Hwj H1 H2; simpl in *; try lia.
      * injection Hvi as <-. rewrite Hv2 in H1. intros Hz.
        destruct (wfn_col _ _ _ _ _ (cp_wf _ _ _ _ Hc1) H1) as (Hco & _ & _).
        destruct (col_ok_arr_cases _ _ _ Hco) as [Hlt|(Hz' & _)]; [|lia].
        rewrite Forall_forall in Y2. specialize (Y2 w ltac:(by eapply elem_of_list_lookup_2) k2 s2 H2).
        lia.
      * intros Hz. by apply (L2 i j v' w k1 k2 s1 s2 ltac:(lia)).
Qed.

Lemma forallb_rows d0 rest :
  forallb (fun d => bool_decide (num_rows d = num_rows d0)) rest = true <->
  Forall (fun d => num_rows d = num_rows d0) rest.
Proof.
  induction rest as [|d l IH]; simpl; [by split|].
  rewrite andb_true_iff, IH, bool_decide_eq_true, Forall_cons. done.
Qed.

Lemma column_copy_concat_spec h d0 rest : Forall (wf h) (d0 :: rest) ->
  exists o h', column_copy_concat (d0 :: rest) h = Ok (o, h') /\ ext h h' /\
    let ts := abs h <$> d0 :: rest in
    match o with
    | None => Exists (fun d => num_rows d <> num_rows d0) rest \/ ~ NoDup (concat (t_names <$> ts))
    | Some v => Forall (fun d => num_rows d = num_rows d0) rest /\ NoDup (concat (t_names <$> ts)) /\
        wf h' v /\ d_viewed v = false /\
        abs h' v = t_beside (abs h d0) ts (if decide (t_strs (abs h d0) = ∅) then ∅ else ⋃ (t_strs <$> ts)) /\
        (forall k, young_col h h' v k) /\ length (h_map h) <= r_maps (d_raw v) /\
        (forall x, r_strs (d_raw v) = Some x -> length (h_str h) <= x) /\
        r_shared (d_raw v) = None /\ r_sharedMaps (d_raw v) = false /\
        (num_rows d0 <> 0 -> forall k1 k2 s1 s2, k1 <> k2 -> mp h' (r_maps (d_raw v)) !! k1 = Some s1 ->
          mp h' (r_maps (d_raw v)) !! k2 = Some s2 -> s_arr s1 <> s_arr s2)
    end.
Proof.
  intros HW. cbv zeta. unfold column_copy_concat.
  destruct (forallb (fun d => bool_decide (num_rows d = num_rows d0)) rest) eqn:Ef.
  2:{ exists None, h. split; [done|]. split; [done|]. left.
      apply not_Forall_Exists; [intros d; apply _|]. rewrite <- forallb_rows. by rewrite Ef. }
  assert (Hrows : Forall (fun d => num_rows d = num_rows d0) rest) by (by apply forallb_rows).
  destruct (copies_spec (d0 :: rest) h h ltac:(done) HW) as (vs & h1 & E1 & X1 & F1 & Y1 & D1 & L1).
  rewrite (bind_eq _ _ _ _ _ E1).
  assert (Hrows' : forall d, d ∈ d0 :: rest -> num_rows d = num_rows d0).
  { intros d [->|Hd]%elem_of_cons; [done|]. rewrite Forall_forall in Hrows. auto. }
  (* what the copies are *)
  assert (Hvs : forall v, v ∈ vs -> exists d, d ∈ d0 :: rest /\ copied h h1 d v).
  { intros v [i Hi]%elem_of_list_lookup. destruct (Forall2_lookup_r _ _ _ _ _ F1 Hi) as (d & Hd & Hc).
    exists d. split; [by eapply elem_of_list_lookup_2|done]. }
  assert (Wn : Forall (fun v => wfn h1 v (num_rows d0)) vs).
  { apply Forall_forall. intros v Hv. destruct (Hvs v Hv) as (d & Hd & Hc).
    rewrite <- (Hrows' d Hd). apply Hc. }
  assert (Hab : abs h1 <$> vs = (fun t => Table (t_rows t) (t_cols t) (t_strs t) None (t_cpu t)) <$> (abs h <$> d0 :: rest)).
  { revert F1. clear. generalize (d0 :: rest) as l. revert vs.
    induction vs as [|v vs IH]; intros l F; inversion F as [|d v' l' vs' Hc F']; subst; [done|].
    change (abs h1 v :: (abs h1 <$> vs) = Table (t_rows (abs h d)) (t_cols (abs h d)) (t_strs (abs h d)) None (t_cpu (abs h d))
       :: ((fun t => Table (t_rows t) (t_cols t) (t_strs t) None (t_cpu t)) <$> (abs h <$> l'))).
    rewrite (IH _ F'). by rewrite (cp_abs _ _ _ _ Hc). }
  inversion F1 as [|? v0 ? vrest Hc0 Frest]; subst.
  assert (HW1 : Forall (wf h1) (v0 :: vrest)).
  { eapply Forall_impl; [exact Wn|]. simpl. intros v Hv. by exists (num_rows d0). }
  destruct (column_concat_view_spec h1 v0 vrest HW1) as (o & h2 & E2 & X2 & A2 & H2). cbv zeta in H2.
  rewrite (bind_eq _ _ _ _ _ E2).
  assert (Hn1 : t_names <$> (abs h1 <$> v0 :: vrest) = t_names <$> (abs h <$> d0 :: rest)).
  { rewrite Hab, <- !list_fmap_compose. done. }
  assert (Hs1 : t_strs <$> (abs h1 <$> v0 :: vrest) = t_strs <$> (abs h <$> d0 :: rest)).
  { rewrite Hab, <- !list_fmap_compose. done. }
  assert (Ht1 : t_cols <$> (abs h1 <$> v0 :: vrest) = t_cols <$> (abs h <$> d0 :: rest)).
  { rewrite Hab, <- !list_fmap_compose. done. }
  rewrite Hn1, Hs1 in H2.
  assert (Hnv : existsb d_viewed (v0 :: vrest) = false).
  { apply not_true_iff_false. intros (v & Hv%elem_of_list_In & Hvw)%existsb_exists.
    destruct (Hvs v Hv) as (d & _ & Hc). by rewrite (cp_view _ _ _ _ Hc) in Hvw. }
  destruct o as [v|].
  2:{ exists None, h2. split; [done|]. split; [by etrans|]. right.
      destruct H2 as [_ [?|[Hx _]]]; [done|]. by rewrite Hnv in Hx. }
  destruct H2 as (Hnd & _ & B1 & B2 & B3 & B4 & B5 & B6 & B7 & B8 & B9 & B10 & B11).
  eexists _, h2. split; [reflexivity|]. split; [by etrans|].
  split; [done|]. split; [done|].
  pose proof (B10 _ Wn) as Wv.
  pose proof (cp_abs _ _ _ _ Hc0) as Ha0.
  split. { exists (num_rows d0). destruct Wv. split; try done. }
  split. { simpl. rewrite B2. apply Hc0. }
  split.
  { specialize (B11 ltac:(apply Forall_forall; intros w Hw;
      destruct (Hvs w ltac:(by right)) as (d & Hd & Hc);
      rewrite (mk_ind_inds _ _ (cp_ind _ _ _ _ Hc)), (mk_ind_inds _ _ (cp_ind _ _ _ _ Hc0));
      by rewrite (Hrows' d Hd))).
    etrans; [|etrans; [exact B11|]]; [done|].
    unfold t_beside. rewrite Ht1, Ha0. done. }
  pose proof (prefix_length _ _ (e_arr _ _ X1)) as La1.
  pose proof (prefix_length _ _ (e_map _ _ X1)) as Lm1.
  pose proof (prefix_length _ _ (e_str _ _ X1)) as Ls1.
  split.
  { intros k s Hs. apply B6 in Hs as (w & Hw & Hs). destruct (Hvs w Hw) as (d & _ & Hc).
    by apply (cp_young _ _ _ _ Hc k). }
  split. { simpl. rewrite B3. done. }
  split. { simpl. intros x Hx. apply B5 in Hx. lia. }
  split; [done|]. split; [done|].
  intros Hz k1 k2 s1 s2 Hne (w1 & Hw1 & H1)%B6 (w2 & Hw2 & H2)%B6.
  apply elem_of_list_lookup in Hw1 as [i Hi], Hw2 as [j Hj].
  assert (Hlen : forall w k s, w ∈ v0 :: vrest -> mp h1 (r_maps (d_raw w)) !! k = Some s -> s_len s <> 0).
  { intros w k s Hw Hs. rewrite Forall_forall in Wn.
    destruct (wfn_col _ _ _ _ _ (Wn w Hw) Hs) as (_ & -> & _). done. }
  destruct (decide (i = j)) as [<-|Hij].
  - rewrite Hi in Hj. injection Hj as <-. apply (D1 w1 k1 k2); try done. by eapply elem_of_list_lookup_2.
  - destruct (decide (i < j)) as [Hlt|Hge].
    + pose proof (L1 i j w1 w2 k1 k2 s1 s2 Hlt Hi Hj H1 H2 (Hlen w1 k1 s1 (elem_of_list_lookup_2 _ _ _ Hi) H1)). lia.
    + pose proof (L1 j i w2 w1 k2 k1 s2 s1 ltac:(lia) Hj Hi H2 H1 (Hlen w2 k2 s2 (elem_of_list_lookup_2 _ _ _ Hj) H2)). lia.
Qed.

End frame.
