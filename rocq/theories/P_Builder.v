(** The builder and ToDataFrame. *)
From Verif Require Export P_Append2.

(** Specification state of a builder: the columns, the string marks, the
    encoding. *)
Record bstate := BState { bs_cols : gmap key (list val); bs_strs : gset string; bs_enc : option nat }.
(** Calls on a builder. [BSet k c vs extra]: the caller passes its own slice
    with values [vs] and [extra] unused cells after them. *)
Inductive bop :=
| BAdd (k : kind) (c : string) (vs : list val)
| BAddStrings (c : string) (vs : list string)
| BSet (k : kind) (c : string) (vs extra : list val)
| BMark (c : string)
| BEnc (e : option nat).
Definition bop_typed (o : bop) : Prop :=
  match o with
  | BAdd k _ vs => Forall (fun v => kind_of v = k) vs
  | BSet k _ vs extra => Forall (fun v => kind_of v = k) vs /\ Forall (fun v => kind_of v = k) extra
  | _ => True
  end.
Definition spec_bop (b : bstate) (o : bop) : bstate :=
  match o with
  | BAdd k c vs => BState (<[(k, c) := default [] (bs_cols b !! (k, c)) ++ vs]> (bs_cols b)) (bs_strs b) (bs_enc b)
  | BAddStrings c vs =>
      BState (<[(KObj, c) := default [] (bs_cols b !! (KObj, c)) ++ ((fun s => VObj (OStr s)) <$> vs)]> (bs_cols b))
             ({[c]} ∪ bs_strs b) (bs_enc b)
  | BSet k c vs _ => BState (<[(k, c) := vs]> (bs_cols b)) (bs_strs b) (bs_enc b)
  | BMark c => BState (bs_cols b) ({[c]} ∪ bs_strs b) (bs_enc b)
  | BEnc e => BState (bs_cols b) (bs_strs b) e
  end.

Section frame.
Context {rt : GoRT}.

Definition new_slice (vs extra : list val) : M slice :=
  let* a := new_arr (vs ++ extra) in ret (Slice a 0 (length vs) (length vs + length extra)).

Definition run_bop (r : raw) (o : bop) : M raw :=
  match o with
  | BAdd k c vs => b_add k r c vs
  | BAddStrings c vs => b_add_strings r c vs
  | BSet k c vs extra => let* s := new_slice vs extra in b_set k r c s
  | BMark c => b_mark r c
  | BEnc e => ret (b_enc r e)
  end.
Fixpoint run_bops (r : raw) (os : list bop) : M raw :=
  match os with
  | [] => ret r
  | o :: os => let* r := run_bop r o in run_bops r os
  end.

Lemma put_new_spec h0 l k vs extra h cols : bmap h l cols -> ext h0 h -> length (h_map h0) <= l -> new_cols h0 h l ->
  Forall (fun v => kind_of v = k.1) vs -> Forall (fun v => kind_of v = k.1) extra ->
  exists h', (let* s := new_slice vs extra in put_col l k s) h = Ok (tt, h') /\
    ext h0 h' /\ new_cols h0 h' l /\ bmap h' l (<[k := vs]> cols) /\
    h_mask h' = h_mask h /\ h_str h' = h_str h /\ h_shr h' = h_shr h.
Proof.
  intros B X Hl Hn F1 F2.
  set (a := length (h_arr h)). set (s := Slice a 0 (length vs) (length vs + length extra)).
  set (h1 := Heap (h_arr h ++ [vs ++ extra]) (h_mask h) (<[l := <[k := s]> (mp h l)]> (h_map h)) (h_str h) (h_shr h)).
  exists h1. split; [done|].
  destruct B as [B1 B2 B3 B4].
  assert (Hm : forall l', mp h1 l' = if decide (l' = l) then <[k := s]> (mp h l) else mp h l').
  { intros l'. unfold mp, h1. simpl. case_decide as E.
    - subst. by rewrite list_lookup_insert.
    - by rewrite list_lookup_insert_ne. }
  assert (Hml : mp h1 l = <[k := s]> (mp h l)) by (by rewrite Hm, decide_True).
  assert (Hao : forall i, i < length (h_arr h) -> arr h1 i = arr h i).
  { intros i Hi. unfold arr, h1. simpl. by rewrite lookup_app_l. }
  assert (Hoth : forall k' s', mp h l !! k' = Some s' -> col_ok h1 k'.1 s' /\ sl_vals h1 s' = sl_vals h s').
  { intros k' s' E. specialize (B2 k' s' E). simpl in B2.
    destruct (decide (s_arr s' < length (h_arr h))) as [Hlt|Hge].
    - apply (col_ok_arr_eq h); [done|intros _; by apply Hao|intros _; by rewrite Hao].
    - apply (col_ok_arr_eq h); [done| |].
      + destruct B2 as (? & H2 & _). unfold arr in H2. rewrite lookup_ge_None_2 in H2 by lia. simpl in H2. lia.
      + intros _. unfold arr at 1. rewrite lookup_ge_None_2 by lia. simpl. lia. }
  assert (Ea : arr h1 a = vs ++ extra).
  { unfold arr, h1. simpl. unfold a. by rewrite lookup_app_r, Nat.sub_diag. }
  assert (Hs1 : col_ok h1 k.1 s /\ sl_vals h1 s = vs).
  { split.
    - split; [simpl; lia|]. simpl. rewrite Ea, app_length, drop_0. split; [lia|].
      apply Forall_take. apply Forall_app. done.
    - unfold sl_vals. simpl. rewrite Ea, drop_0. apply take_app. }
  destruct Hs1 as [Hs1 Hs2].
  split; [|split; [|split; [|done]]].
  - destruct X as [Y1 Y2 Y3 Y4 Y5]. split; try done.
    + simpl. by apply prefix_app_r.
    + apply prefix_of_map; [simpl; rewrite insert_length; by apply prefix_length|].
      intros i Hi. rewrite Hm, decide_False by lia. destruct Y2 as [tl Y2]. unfold mp. rewrite Y2. by rewrite lookup_app_l.
  - intros k' s'. rewrite Hml. destruct (decide (k' = k)) as [->|Hne].
    + rewrite lookup_insert. intros [= <-]. left. simpl. apply prefix_length, X.
    + rewrite lookup_insert_ne by done. apply Hn.
  - split.
    + simpl. by rewrite insert_length.
    + rewrite Hml. intros k' s'. destruct (decide (k' = k)) as [->|Hne].
      * rewrite lookup_insert. by intros [= <-].
      * rewrite lookup_insert_ne by done. intros E. by apply Hoth.
    + rewrite Hml, fmap_insert, Hs2. rewrite <- B3. apply map_eq. intros k'.
      destruct (decide (k' = k)) as [->|Hne]; [by rewrite !lookup_insert|].
      rewrite !lookup_insert_ne, !lookup_fmap by done.
      destruct (mp h l !! k') as [s'|] eqn:E; [|done]. simpl. f_equal. by apply (Hoth k').
    + assert (Hd : forall k2 s2, mp h l !! k2 = Some s2 -> s_cap s2 <> 0 -> a <> s_arr s2).
      { intros k2 s2 E Hz Ea2. specialize (B2 k2 s2 E). simpl in B2. destruct B2 as (? & H2 & _).
        unfold arr in H2. rewrite lookup_ge_None_2 in H2 by (subst a; lia). simpl in H2. lia. }
      rewrite Hml. intros k1 k2 s1 s2.
      destruct (decide (k1 = k)) as [->|N1]; destruct (decide (k2 = k)) as [->|N2].
      * done.
      * rewrite lookup_insert, lookup_insert_ne by done. intros [= <-] E _ _ Hz. by apply (Hd k2).
      * rewrite lookup_insert, lookup_insert_ne by done. intros E [= <-] _ Hz _. apply not_eq_sym. by apply (Hd k1).
      * rewrite !lookup_insert_ne by done. apply B4.
Qed.

(** The builder [r] in heap [h] is in state [b]; everything of [h0] is as it
    was. *)
Record built (h0 h : heap) (r : raw) (b : bstate) : Prop := {
  bu_ext : ext h0 h;
  bu_new : length (h_map h0) <= r_maps r;
  bu_cols : new_cols h0 h (r_maps r);
  bu_map : bmap h (r_maps r) (bs_cols b);
  bu_str : valid_str h (r_strs r);
  bu_strnew : forall x, r_strs r = Some x -> length (h_str h0) <= x;
  bu_strs : ostr h (r_strs r) = bs_strs b;
  bu_enc : r_enc r = bs_enc b;
  bu_shm : r_sharedMaps r = false }.

Lemma b_mark_spec h0 h r b c : built h0 h r b ->
  exists r' h', b_mark r c h = Ok (r', h') /\ built h0 h' r' (BState (bs_cols b) ({[c]} ∪ bs_strs b) (bs_enc b)) /\ r_cpu r' = r_cpu r.
Proof.
  intros [X N C B S SN SS E SM]. unfold b_mark.
  assert (exists st h', str_add (r_strs r) {[c]} h = Ok (st, h') /\ only_str h h' /\ valid_str h' st /\
     ostr h' st = ostr h (r_strs r) ∪ {[c]} /\ (forall x, st = Some x -> r_strs r = Some x \/ length (h_str h) <= x) /\
     (forall x, x < length (h_str h) -> r_strs r <> Some x -> str h' x = str h x)) as (st & h' & E1 & O & V & Q & Nw & K).
  { destruct (and_step (r_strs r) {[c]} h S) as (st & h' & E1 & H). exists st, h'. split; [|exact H].
    destruct (r_strs r) as [x|]; [done|]. rewrite <- E1. unfold str_add.
    rewrite decide_False by set_solver. done. }
  rewrite (bind_eq _ _ _ _ _ E1). eexists _, h'. split; [reflexivity|]. split; [|done].
  assert (Hmp : forall l, mp h' l = mp h l) by (intros l; unfold mp; by rewrite (ot_map _ _ O)).
  assert (Har : forall l, arr h' l = arr h l) by (intros l; unfold arr; by rewrite (ot_arr _ _ O)).
  split; cbn [r_maps r_strs r_enc bs_cols bs_strs bs_enc r_sharedMaps]; try done.
  - destruct X as [Y1 Y2 Y3 Y4 Y5]. split.
    + by rewrite (ot_arr _ _ O).
    + by rewrite (ot_map _ _ O).
    + pose proof (prefix_length _ _ Y3). pose proof (ot_len _ _ O).
      exists (drop (length (h_str h0)) (h_str h')).
      rewrite <- (take_drop (length (h_str h0)) (h_str h')) at 1. f_equal.
      apply list_eq. intros i. destruct (decide (i < length (h_str h0))) as [Hi|Hi].
      * rewrite lookup_take by done.
        destruct (lookup_lt_is_Some_2 (h_str h') i) as [x Ex]; [lia|].
        destruct (lookup_lt_is_Some_2 (h_str h) i) as [y Ey]; [lia|].
        assert (str h' i = str h i) as Ea.
        { apply K; [lia|]. intros Es. apply SN in Es. lia. }
        unfold str in Ea. rewrite Ex, Ey in Ea. simpl in Ea. subst y. rewrite Ex.
        destruct Y3 as [tl Y3]. rewrite Y3, lookup_app_l in Ey by done. done.
      * rewrite lookup_take_ge by lia. symmetry. apply lookup_ge_None_2. lia.
    + by rewrite (ot_shr _ _ O).
    + intros i. unfold marr. rewrite (ot_mask _ _ O). apply Y5.
  - intros k s. rewrite Hmp. apply C.
  - destruct B as [B1 B2 B3 B4]. split; rewrite ?Hmp; try done.
    + by rewrite (ot_map _ _ O).
    + intros k s Hs. specialize (B2 k s Hs). simpl in *. unfold col_ok. by rewrite Har.
    + rewrite <- B3. apply map_fmap_ext. intros k s _. unfold sl_vals. by rewrite Har.
  - intros x Hx. destruct (Nw x Hx) as [Hr|Hr]; [by apply SN|].
    pose proof (prefix_length _ _ (e_str _ _ X)). lia.
  - rewrite Q, SS. set_solver.
Qed.

Lemma b_add_spec h0 h r b k c vs : built h0 h r b -> Forall (fun v => kind_of v = k) vs ->
  exists h', b_add k r c vs h = Ok (r, h') /\
    built h0 h' r (BState (<[(k, c) := default [] (bs_cols b !! (k, c)) ++ vs]> (bs_cols b)) (bs_strs b) (bs_enc b)).
Proof.
  intros [X N C B S SN SS E SM] F.
  destruct (app_col_spec h (r_maps r) (bs_cols b) (k, c) vs B F) as (h' & E1 & A1 & B1).
  destruct (app_frame_ext h0 (r_maps r) h h' X N C A1) as [X1 C1].
  exists h'. split.
  { unfold app_col in E1. unfold b_add.
    apply bind_ok in E1 as (m & hh & Em & E1). injection Em as <- <-.
    apply bind_ok in E1 as (s & h1 & Es & E1).
    rewrite (bind_eq _ _ h (mp h (r_maps r)) h) by done. rewrite (bind_eq _ _ _ _ _ Es).
    by rewrite (bind_eq _ _ _ _ _ E1). }
  split; try done.
  - intros x Hx. rewrite (af_str _ _ _ A1). by apply S.
  - unfold ostr in *. destruct (r_strs r); [|done]. unfold str in *. rewrite (af_str _ _ _ A1). done.
Qed.

Lemma run_bop_spec h0 h r b o : built h0 h r b -> bop_typed o ->
  exists r' h', run_bop r o h = Ok (r', h') /\ built h0 h' r' (spec_bop b o) /\ r_cpu r' = r_cpu r.
Proof.
  intros Bu T. destruct o as [k c vs|c vs|k c vs extra|c|e]; simpl in T.
  - destruct (b_add_spec h0 h r b k c vs Bu T) as (h' & E & B'). exists r, h'. done.
  - destruct (b_add_spec h0 h r b KObj c ((fun s => VObj (OStr s)) <$> vs) Bu) as (h' & E & B').
    { apply Forall_fmap, Forall_forall. done. }
    destruct (b_mark_spec h0 h' r _ c B') as (r' & h2 & E2 & B2 & Hc).
    exists r', h2. split; [|done]. simpl. unfold b_add_strings. by rewrite (bind_eq _ _ _ _ _ E).
  - destruct T as [T1 T2]. destruct Bu as [X N C B S SN SS E SM].
    destruct (put_new_spec h0 (r_maps r) (k, c) vs extra h (bs_cols b) B X N C T1 T2) as
      (h' & E1 & X1 & C1 & B1 & M1 & M2 & M3).
    exists r, h'. split; [|split; [|done]].
    + simpl. unfold b_set. apply bind_ok in E1 as (s & h1 & Es & E1).
      rewrite (bind_eq _ _ _ _ _ Es). by rewrite (bind_eq _ _ _ _ _ E1).
    + split; try done.
      * intros x Hx. rewrite M2. by apply S.
      * unfold ostr in *. destruct (r_strs r); [|done]. unfold str in *. by rewrite M2.
  - destruct (b_mark_spec h0 h r b c Bu) as (r' & h2 & E2 & B2 & Hc). exists r', h2. done.
  - destruct Bu as [X N C B S SN SS E SM]. exists (b_enc r e), h. split; [done|]. split; [|done]. by split.
Qed.

Lemma run_bops_spec h0 os : forall h r b, built h0 h r b -> Forall bop_typed os ->
  exists r' h', run_bops r os h = Ok (r', h') /\ built h0 h' r' (foldl spec_bop b os) /\ r_cpu r' = r_cpu r.
Proof.
  induction os as [|o os IH]; intros h r b Bu F.
  - exists r, h. done.
  - apply Forall_cons in F as [T F]. destruct (run_bop_spec h0 h r b o Bu T) as (r1 & h1 & E1 & B1 & C1).
    destruct (IH h1 r1 _ B1 F) as (r2 & h2 & E2 & B2 & C2).
    exists r2, h2. split; [cbn [run_bops]; by rewrite (bind_eq _ _ _ _ _ E1)|]. split; [done|congruence].
Qed.

Lemma new_raw_built h : exists r h', new_raw h = Ok (r, h') /\ built h h' r (BState ∅ ∅ None) /\ r_cpu r = max_cpu (-1).
Proof.
  set (h1 := Heap (h_arr h) (h_mask h) (h_map h ++ [∅]) (h_str h) (h_shr h)).
  exists (Raw (length (h_map h)) None false None (max_cpu (-1)) None), h1. split; [done|]. split; [|done].
  assert (Hm1 : mp h1 (length (h_map h)) = ∅) by (unfold mp, h1; simpl; by rewrite lookup_app_r, Nat.sub_diag).
  split; simpl; try done.
  - split; try done; by eexists.
  - intros k s. by rewrite Hm1, lookup_empty.
  - split.
    + simpl. rewrite app_length. simpl. lia.
    + rewrite Hm1. apply map_Forall_empty.
    + by rewrite Hm1, fmap_empty.
    + rewrite Hm1. intros k1 k2 s1 s2. by rewrite lookup_empty.
Qed.

(** ** ToDataFrame *)
Lemma to_dataframe_ord_spec h r ord : raw_ok h r -> valid_str h (r_strs r) ->
  ord ≡ₚ map_to_list (mp h (r_maps r)) ->
  match to_dataframe_ord ord r h with
  | Ok (d, h') => exists n, (forall k vs, raw_cols h r !! k = Some vs -> length vs = n) /\
      (raw_cols h r = ∅ -> n = 0) /\ wf h' d /\ ext h h' /\ d_viewed d = false /\ r_maps (d_raw d) = r_maps r /\
      abs h' d = Table n (raw_cols h r) (ostr h (r_strs r)) (r_enc r) (r_cpu r)
  | Panic => exists k1 k2 v1 v2, raw_cols h r !! k1 = Some v1 /\ raw_cols h r !! k2 = Some v2 /\ length v1 <> length v2
  end.
Proof.
  intros [Hl Hok] Hst Hp. unfold to_dataframe_ord. rewrite (bind_eq _ _ h (mp h (r_maps r)) h) by done. cbv zeta.
  set (m := mp h (r_maps r)) in *.
  assert (Hlen : forall k s, m !! k = Some s -> length (sl_vals h s) = s_len s).
  { intros k s E. eapply col_ok_vals_length. by apply (Hok k s E). }
  destruct (decide (map_Forall (fun _ s => s_len s = nar_ord ord) m)) as [Ha|Hn].
  - set (n := nar_ord ord) in *. unfold bind, make_mask, bind. simpl.
    set (h' := Heap _ _ _ _ _). exists n.
    assert (X : ext h h').
    { split; try done. intros i. unfold marr, h'. simpl.
      destruct (decide (i < length (h_mask h))) as [Hi|Hi].
      - by rewrite lookup_app_l.
      - rewrite (lookup_ge_None_2 (h_mask h)) by lia. simpl. lia. }
    split; [|split; [|split; [|split; [done|split; [done|split; [done|]]]]]].
    + intros k vs. unfold raw_cols. fold m. rewrite lookup_fmap. intros (s & Hs & ->)%fmap_Some.
      rewrite (Hlen k s Hs). by apply (Ha k s).
    + intros Hz. unfold raw_cols in Hz. fold m in Hz. apply fmap_empty_inv in Hz.
      destruct (nar_ord_in m ord Hp) as [[_ H0]|(k & s & Hs & _)]; [done|]. by rewrite Hz, lookup_empty in Hs.
    + exists n. split; simpl; try done.
      * intros k s Hs. split; [|by apply (Ha k s)]. by apply (Hok k s).
      * unfold inds; simpl. unfold ilist; simpl. rewrite take_ge by done.
        apply Forall_forall. intros i Hi%elem_of_seq. lia.
      * intros _. unfold inds, num_rows; simpl. unfold ilist; simpl.
        rewrite take_ge by done. by rewrite seq_length.
      * split; simpl; [lia|]. unfold marr, h'. simpl. rewrite lookup_app_r, Nat.sub_diag by done. simpl.
        by rewrite replicate_length.
      * unfold num_rows. simpl. by rewrite seq_length.
    + unfold abs. simpl. f_equal; [unfold num_rows; simpl; by rewrite seq_length|].
      unfold raw_cols. change (mp h' (r_maps r)) with m. fold m. apply map_fmap_ext. intros k s Hs.
      unfold inds; simpl. unfold ilist; simpl. rewrite take_ge by done.
      change (sl_vals h' s) with (sl_vals h s). rewrite <- (Ha k s Hs), <- (Hlen k s Hs). apply pick_seq_all.
  - destruct (nar_ord_in m ord Hp) as [[Hz _]|(k & s & Hs & Hns)].
    { exfalso. apply Hn. rewrite Hz. apply map_Forall_empty. }
    apply map_not_Forall in Hn as (k2 & s2 & Hs2 & Hne); [|apply _].
    exists k, k2, (sl_vals h s), (sl_vals h s2). unfold raw_cols. fold m. rewrite !lookup_fmap, Hs, Hs2.
    split; [done|]. split; [done|]. rewrite (Hlen k s Hs), (Hlen k2 s2 Hs2). congruence.
Qed.

Lemma built_raw_ok h0 h r b : built h0 h r b -> raw_ok h r /\ raw_cols h r = bs_cols b.
Proof. intros []. destruct bu_map0. done. Qed.

End frame.
