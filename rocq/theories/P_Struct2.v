(** Rename, Drop, AllocStrings, IntToFloats, BoolToFloats. *)
From Verif Require Export P_Struct.

(** [chg] that keeps the old string headers. *)
Lemma chg_ext l h0 h h' : ext h0 h -> chg l h h' -> h_str h `prefix_of` h_str h' ->
  length (h_map h0) <= l -> ext h0 h'.
Proof.
  intros [E1 E2 E3 E4 E5] H Hs Hl. pose proof (prefix_length _ _ E2) as Hlen. split.
  - etrans; [done|]. apply (c_arr _ _ _ H).
  - exists (drop (length (h_map h0)) (h_map h')). symmetry.
    rewrite <- (take_drop (length (h_map h0)) (h_map h')) at 2. f_equal.
    apply list_eq. intros i. destruct (decide (i < length (h_map h0))) as [Hi|Hi].
    + rewrite lookup_take by done. pose proof (c_len _ _ _ H) as Hc.
      assert (Hm : mp h' i = mp h i) by (apply (c_map _ _ _ H); lia).
      unfold mp in Hm. assert (Hi' : i < length (h_map h')) by lia.
      destruct (lookup_lt_is_Some_2 (h_map h') i Hi') as [x Ex].
      assert (Hi2 : i < length (h_map h)) by lia.
      destruct (lookup_lt_is_Some_2 (h_map h) i Hi2) as [y Ey].
      rewrite Ex, Ey in Hm. simpl in Hm. subst y. rewrite Ex. destruct E2 as [kk E2].
      rewrite E2 in Ey. rewrite lookup_app_l in Ey by done. done.
    + rewrite lookup_take_ge by lia. apply lookup_ge_None_2. lia.
  - by etrans.
  - pose proof (c_shr _ _ _ H). lia.
  - intros i. etrans; [apply E5|]. apply (c_mask _ _ _ H).
Qed.

Lemma only_shr_chg l h h' : only_shr h h' -> chg l h h'.
Proof. intros H. by apply ext_chg, only_shr_ext. Qed.

Lemma set_mp_chg l h m : l < length (h_map h) -> chg l h (set_mp h l m).
Proof.
  intros Hl. split; simpl; try done.
  - by rewrite insert_length.
  - intros l' Hl' _. unfold mp. simpl. by rewrite list_lookup_insert_ne.
Qed.
Lemma mp_set_mp h l m : l < length (h_map h) -> mp (set_mp h l m) l = m.
Proof. intros Hl. unfold mp. simpl. by rewrite list_lookup_insert. Qed.

(** Only string headers change (contents or additions). *)
Record only_str (h h' : heap) : Prop := {
  ot_arr : h_arr h' = h_arr h; ot_mask : h_mask h' = h_mask h;
  ot_map : h_map h' = h_map h; ot_shr : h_shr h' = h_shr h;
  ot_len : length (h_str h) <= length (h_str h') }.
Lemma only_str_chg l h h' : only_str h h' -> chg l h h'.
Proof.
  intros []. split; rewrite ?ot_arr0, ?ot_map0, ?ot_shr0; try done.
  - intros i. unfold marr. by rewrite ot_mask0.
  - intros l' _ _. unfold mp. by rewrite ot_map0.
Qed.
Lemma only_str_stable h h' : only_str h h' -> stable h h'.
Proof.
  intros H. eapply (chg_stable 0); [by apply only_str_chg|]. intros n Hm.
  replace (mp h' 0) with (mp h 0); [|unfold mp; by rewrite (ot_map _ _ H)].
  eapply chg_map_ok; [by apply (only_str_chg 0)|done].
Qed.

Lemma str_add_spec o xs h : valid_str h o -> exists o' h', str_add o xs h = Ok (o', h') /\
  only_str h h' /\ valid_str h' o' /\ ostr h' o' = ostr h o ∪ xs /\
  (o = None \/ xs = ∅ -> h_str h `prefix_of` h_str h').
Proof.
  intros Hv. unfold str_add. destruct (decide (xs = ∅)) as [->|Hne].
  { exists o, h. split; [done|]. split; [by split|]. split; [done|]. split; [set_solver|done]. }
  destruct o as [l|].
  - eexists _, _. split; [reflexivity|]. split; [split; simpl; try done; by rewrite insert_length|].
    split; [intros l' [= <-]; simpl; rewrite insert_length; by apply Hv|].
    split; [|by intros [|]].
    simpl. unfold str. simpl. by rewrite list_lookup_insert by (by apply Hv).
  - eexists _, _. split; [reflexivity|]. split; [split; simpl; try done; rewrite app_length; lia|].
    split; [intros l' [= <-]; simpl; rewrite app_length; simpl; lia|].
    split; [|intros _; by eexists].
    simpl. unfold str. simpl. rewrite lookup_app_r, Nat.sub_diag by done. simpl. set_solver.
Qed.
Lemma str_remove_spec o xs h : valid_str h o -> exists h', str_remove o xs h = Ok (tt, h') /\
  only_str h h' /\ valid_str h' o /\ ostr h' o = ostr h o ∖ xs.
Proof.
  intros Hv. destruct o as [l|].
  - eexists. split; [reflexivity|]. split; [split; simpl; try done; by rewrite insert_length|].
    split; [intros l' [= <-]; simpl; rewrite insert_length; by apply Hv|].
    simpl. unfold str. simpl. by rewrite list_lookup_insert by (by apply Hv).
  - exists h. split; [done|]. split; [by split|]. split; [done|]. simpl. set_solver.
Qed.

Section frame.
Context {rt : GoRT}.

Lemma own_change h d n : wfn h d n ->
  exists r1 h1, own_maps (d_raw d) h = Ok (r1, h1) /\ ext h h1 /\ h_arr h1 = h_arr h /\
    mp h1 (r_maps r1) = mp h (r_maps (d_raw d)) /\ wfn h1 (set_raw d r1) n /\
    r_strs r1 = r_strs (d_raw d) /\ r_enc r1 = r_enc (d_raw d) /\ r_cpu r1 = r_cpu (d_raw d) /\
    r_sharedMaps r1 = false /\
    (r_sharedMaps (d_raw d) = true -> r_maps r1 = length (h_map h)) /\
    (r_sharedMaps (d_raw d) = false -> r1 = d_raw d /\ h1 = h).
Proof.
  intros W. destruct (own_maps_spec (d_raw d) h) as
    (r1 & h1 & E1 & A1 & A2 & A3 & A4 & A5 & A6 & A7 & A8 & A9 & A10 & A11 & A12);
    [apply W|intros l; apply W|].
  exists r1, h1. split; [done|]. split; [done|]. split; [done|]. split; [done|]. split.
  { eapply struct_wfn; [done|by apply ext_chg|done| |done|].
    - rewrite A8. intros l Hl. pose proof (wf_str _ _ _ W l Hl).
      pose proof (prefix_length _ _ (e_str _ _ A1)). lia.
    - rewrite A5. eapply ext_map_ok; [done|]. apply W. }
  do 4 (split; [done|]). split; [|done]. intros Hs. by apply A11.
Qed.

(** ** Rename *)
Definition rename_slice (m : gmap key slice) (c : string) : option (kind * slice) :=
  match m !! (KFloat, c), m !! (KObj, c), m !! (KInt, c), m !! (KBool, c) with
  | Some x, _, _, _ => Some (KFloat, x)
  | None, Some x, _, _ => Some (KObj, x)
  | None, None, Some x, _ => Some (KInt, x)
  | None, None, None, Some x => Some (KBool, x)
  | None, None, None, None => None
  end.
Lemma rename_slice_col h d c : rename_col (abs h d) c =
  (fun p => (p.1, pick (inds d) (sl_vals h p.2))) <$> rename_slice (mp h (r_maps (d_raw d))) c.
Proof.
  unfold rename_col, rename_slice. rewrite !abs_cols_lookup.
  destruct (_ !! (KFloat, c)); [done|]. destruct (_ !! (KObj, c)); [done|].
  destruct (_ !! (KInt, c)); [done|]. by destruct (_ !! (KBool, c)).
Qed.
Lemma rename_slice_lookup m c k s : rename_slice m c = Some (k, s) -> m !! (k, c) = Some s.
Proof.
  unfold rename_slice. intros H. repeat case_match; naive_solver.
Qed.

(** The model's Rename in one equation. *)
Lemma rename_eq r old new h r1 h1 : own_maps r h = Ok (r1, h1) ->
  rename r old new h =
  match rename_slice (mp h1 (r_maps r1)) old with
  | None => Panic
  | Some (k, s) =>
     (put_mp (r_maps r1) (delete (k, old) (<[(k, new) := s]> (mp h1 (r_maps r1)))) ;;*
      let* xs := get_ostr (r_strs r1) in
      let* st := (if decide (k = KObj /\ old ∈ xs)
                  then str_remove (r_strs r1) {[old]} ;;* str_add (r_strs r1) {[new]}
                  else ret (r_strs r1)) in
      let* sh := get_oshr (r_shared r1) in
      let* sh' := (if decide (old ∈ sh)
               then shr_remove (r_shared r1) {[old]} ;;* shr_add (r_shared r1) {[new]}
               else ret (r_shared r1)) in
      ret (Raw (r_maps r1) sh' (r_sharedMaps r1) (r_enc r1) (r_cpu r1) st)) h1
  end.
Proof.
  intros E. unfold rename. rewrite (bind_eq _ _ _ _ _ E). unfold rename_slice.
  unfold bind at 1. unfold get_mp at 1.
  destruct (mp h1 (r_maps r1) !! (KFloat, old)) as [s|].
  { unfold bind, put_mp, ret, get_ostr. rewrite decide_False by (by intros [? _]). done. }
  destruct (mp h1 (r_maps r1) !! (KObj, old)) as [s|].
  { unfold bind, put_mp, ret, get_ostr. simpl. destruct (decide (old ∈ ostr _ _)) as [Hin|Hin].
    - destruct (decide (KObj = KObj /\ _)) as [_|Hn]; [done|]. tauto.
    - destruct (decide (KObj = KObj /\ _)) as [[_ Hn]|_]; [|done]. done. }
  destruct (mp h1 (r_maps r1) !! (KInt, old)) as [s|].
  { unfold bind, put_mp, ret, get_ostr. rewrite decide_False by (by intros [? _]). done. }
  destruct (mp h1 (r_maps r1) !! (KBool, old)) as [s|]; [|done].
  unfold bind, put_mp, ret, get_ostr. rewrite decide_False by (by intros [? _]). done.
Qed.

Lemma rename_spec h d old new : wf h d -> old <> new ->
  match rename (d_raw d) old new h with
  | Ok (r', h') => exists k col, rename_col (abs h d) old = Some (k, col) /\
      wf h' (set_raw d r') /\ abs h' (set_raw d r') = t_rename k old new (abs h d) /\
      stable h h' /\
      (r_sharedMaps (d_raw d) = true -> ~ (k = KObj /\ old ∈ t_strs (abs h d)) -> ext h h') /\
      chg (r_maps r') h h' /\
      (~ (k = KObj /\ old ∈ t_strs (abs h d)) -> h_str h `prefix_of` h_str h') /\
      r_maps r' = (if r_sharedMaps (d_raw d) then length (h_map h) else r_maps (d_raw d)) /\
      r_sharedMaps r' = false
  | Panic => rename_col (abs h d) old = None
  end.
Proof.
  intros [n W] Hne. destruct (own_change h d n W) as
    (r1 & h1 & E1 & X1 & Ea & A1 & W1 & A2 & A3 & A4 & A5 & A6 & A7).
  rewrite (rename_eq _ _ _ _ _ _ E1). rewrite A1.
  rewrite rename_slice_col. set (m := mp h (r_maps (d_raw d))) in *.
  destruct (rename_slice m old) as [[k s]|] eqn:Er; [|done]. simpl.
  pose proof (rename_slice_lookup _ _ _ _ Er) as Hs.
  set (m' := delete (k, old) (<[(k, new):=s]> m)).
  set (h2 := set_mp h1 (r_maps r1) m').
  assert (L1 : r_maps r1 < length (h_map h1)) by apply (wf_map _ _ _ W1).
  assert (V2 : valid_str h2 (r_strs r1)) by (intros l Hl; by apply (wf_str _ _ _ W1)).
  assert (S2 : ostr h2 (r_strs r1) = ostr h (r_strs (d_raw d))).
  { rewrite A2. change (ostr h2 (r_strs (d_raw d))) with (ostr h1 (r_strs (d_raw d))).
    apply ext_ostr; [done|]. apply W. }
  rewrite (bind_eq _ _ h1 tt h2) by done.
  rewrite (bind_eq _ _ h2 _ h2) by done. rewrite S2.
  assert (Hst : exists st h3, (if decide (k = KObj /\ old ∈ ostr h (r_strs (d_raw d)))
      then str_remove (r_strs r1) {[old]} ;;* str_add (r_strs r1) {[new]}
      else ret (r_strs r1)) h2 = Ok (st, h3) /\ only_str h2 h3 /\ valid_str h3 st /\
      ostr h3 st = (if decide (k = KObj /\ old ∈ ostr h (r_strs (d_raw d)))
         then {[new]} ∪ (ostr h (r_strs (d_raw d)) ∖ {[old]}) else ostr h (r_strs (d_raw d))) /\
      (~ (k = KObj /\ old ∈ ostr h (r_strs (d_raw d))) -> h3 = h2)).
  { destruct (decide _) as [Hd|Hd].
    - destruct (str_remove_spec (r_strs r1) {[old]} h2 V2) as (h3 & E3 & O3 & V3 & S3).
      destruct (str_add_spec (r_strs r1) {[new]} h3 V3) as (st & h4 & E4 & O4 & V4 & S4 & _).
      exists st, h4. rewrite (bind_eq _ _ _ _ _ E3). split; [done|].
      split; [destruct O3, O4; split; try congruence; lia|]. split; [done|].
      split; [rewrite S4, S3, S2; set_solver|]. done.
    - exists (r_strs r1), h2. split; [done|]. split; [by split|]. done. }
  destruct Hst as (st & h3 & E3 & O3 & V3 & S3 & K3). rewrite (bind_eq _ _ _ _ _ E3).
  rewrite (bind_eq _ _ h3 _ h3) by done.
  assert (Hsh : exists sh h4, (if decide (old ∈ oshr h3 (r_shared r1))
      then shr_remove (r_shared r1) {[old]} ;;* shr_add (r_shared r1) {[new]}
      else ret (r_shared r1)) h3 = Ok (sh, h4) /\ only_shr h3 h4 /\ valid_shr h4 sh).
  { assert (V : valid_shr h3 (r_shared r1)).
    { intros l Hl. rewrite (ot_shr _ _ O3). by apply (wf_shr _ _ _ W1). }
    destruct (decide (old ∈ oshr h3 (r_shared r1))) as [Hd|Hd].
    - destruct (shr_remove_spec (r_shared r1) {[old]} h3) as (h4 & E4 & O4 & L4 & _).
      destruct (shr_add_spec (r_shared r1) {[new]} h4) as (sh & h5 & E5 & O5 & V5 & _).
      exists sh, h5. rewrite (bind_eq _ _ _ _ _ E4). split; [done|]. split; [by etrans|].
      apply V5. intros l Hl. rewrite L4. by apply V.
    - by exists (r_shared r1), h3. }
  destruct Hsh as (sh & h4 & E4 & O4 & V4). rewrite (bind_eq _ _ _ _ _ E4). simpl.
  assert (C12 : chg (r_maps r1) h1 h2) by (by apply set_mp_chg).
  assert (C14 : chg (r_maps r1) h1 h4).
  { eapply chg_trans; [exact C12|]. eapply chg_trans; [by apply only_str_chg|by apply only_shr_chg]. }
  assert (M4 : mp h4 (r_maps r1) = m').
  { unfold mp. rewrite (os_map _ _ O4), (ot_map _ _ O3). fold (mp h2 (r_maps r1)).
    unfold h2. by apply mp_set_mp. }
  assert (Hok1 : map_ok h4 n m').
  { intros k' s' Hs'. unfold m' in Hs'. apply lookup_delete_Some in Hs' as [Hd Hs'].
    assert (map_ok h4 n m) as Hm.
    { eapply chg_map_ok; [exact C14|]. rewrite <- A1. apply (wf_cols _ _ _ W1). }
    destruct (decide (k' = (k, new))) as [->|Hk].
    - rewrite lookup_insert in Hs'. injection Hs' as <-. by apply (Hm (k, old)).
    - rewrite lookup_insert_ne in Hs' by done. by apply Hm. }
  exists k, (pick (inds d) (sl_vals h s)). split; [done|].
  split.
  { exists n. eapply struct_wfn; [exact W|..]; simpl.
    - eapply chg_trans; [by apply ext_chg|done].
    - rewrite (os_map _ _ O4), (ot_map _ _ O3). unfold h2. simpl. by rewrite insert_length.
    - intros l Hl. rewrite (os_str _ _ O4). by apply V3.
    - done.
    - by rewrite M4. }
  assert (Hsv : forall k' s', m !! k' = Some s' -> sl_vals h4 s' = sl_vals h s').
  { intros k' s' Hk'. rewrite (chg_sl_vals _ _ _ k'.1 _ C14).
    - apply (ext_sl_vals _ _ k'.1); [done|]. by apply (wf_cols _ _ _ W k').
    - eapply ext_col_ok; [done|]. by apply (wf_cols _ _ _ W k'). }
  split.
  { unfold abs. simpl. unfold t_rename. simpl. rewrite A3, A4, M4.
    rewrite lookup_fmap. fold m. rewrite Hs. simpl.
    replace (ostr h4 st) with (ostr h3 st); [|unfold ostr, str; by rewrite (os_str _ _ O4)].
    rewrite S3. f_equal. apply map_eq. intros k'. change (inds (set_raw d _)) with (inds d).
    unfold m'. rewrite lookup_fmap.
    destruct (decide (k' = (k, new))) as [->|Hk].
    - rewrite lookup_insert, lookup_delete_ne by congruence. rewrite lookup_insert. simpl.
      by rewrite (Hsv (k, old)).
    - rewrite (lookup_insert_ne _ (k, new)) by done.
      destruct (decide (k' = (k, old))) as [->|Hk2].
      + by rewrite !lookup_delete.
      + rewrite !lookup_delete_ne, lookup_insert_ne by done. rewrite lookup_fmap. fold m.
        destruct (m !! k') as [s'|] eqn:Es; [|done]. simpl. by rewrite (Hsv k'). }
  assert (C04 : chg (r_maps r1) h h4) by (eapply chg_trans; [by apply ext_chg|done]).
  assert (Xs : r_sharedMaps (d_raw d) = true -> ~ (k = KObj /\ old ∈ t_strs (abs h d)) -> ext h h4).
  { intros Hsh Hn. specialize (K3 Hn). eapply chg_ext; [exact X1|exact C14| |by rewrite A6].
    rewrite (os_str _ _ O4), K3. done. }
  assert (Pst : ~ (k = KObj /\ old ∈ t_strs (abs h d)) -> h_str h `prefix_of` h_str h4).
  { intros Hn. specialize (K3 Hn). rewrite (os_str _ _ O4), K3. apply X1. }
  split; [|split; [done|]; split; [done|]; split; [done|]; split; [|done];
    destruct (r_sharedMaps (d_raw d)); [by apply A6|by destruct (A7 eq_refl) as [-> _]]].
  destruct (r_sharedMaps (d_raw d)) eqn:Esh.
  - etrans; [by apply ext_stable|]. eapply chg_stable; [exact C14|].
    intros n' Hn'. rewrite M4, A1 in *.
    assert (n' = n) as ->; [|done].
    destruct (Hn' _ _ Hs) as [_ Hn1]. destruct (wf_cols _ _ _ W _ _ Hs) as [_ Hn2]. congruence.
  - destruct (A7 eq_refl) as [-> ->]. eapply chg_stable; [exact C14|].
    intros n' Hn'. rewrite M4. assert (n' = n) as ->; [|done].
    destruct (Hn' _ _ Hs) as [_ Hn1]. destruct (wf_cols _ _ _ W _ _ Hs) as [_ Hn2]. congruence.
Qed.
End frame.
