(** MergeRawDataColumns and FromCSV. *)
From Verif Require Export M_Csv.
From Verif Require Export P_Builder P_Concat2.

Section frame.
Context {rt : GoRT}.

(** The map object, string header and shared header of [r] are younger than
    [h0]; the columns of [r] are [m]. *)
Record mstate (h0 h : heap) (r : raw) (m : gmap key slice) (xs : gset string) : Prop := {
  ms_ext : ext h0 h; ms_arr : h_arr h = h_arr h0; ms_mask : h_mask h = h_mask h0;
  ms_new : length (h_map h0) <= r_maps r; ms_lt : r_maps r < length (h_map h);
  ms_mp : mp h (r_maps r) = m;
  ms_str : valid_str h (r_strs r); ms_strnew : forall x, r_strs r = Some x -> length (h_str h0) <= x;
  ms_strs : ostr h (r_strs r) = xs;
  ms_shr : valid_shr h (r_shared r); ms_shrs : oshr h (r_shared r) = names m;
  ms_shm : r_sharedMaps r = false }.

Lemma str_add_spec st xs h : valid_str h st ->
  exists st' h', str_add st xs h = Ok (st', h') /\ only_str h h' /\ valid_str h' st' /\
    ostr h' st' = ostr h st ∪ xs /\
    (forall x, st' = Some x -> st = Some x \/ length (h_str h) <= x) /\
    (forall x, x < length (h_str h) -> st <> Some x -> str h' x = str h x).
Proof.
  intros Hv. unfold str_add. destruct (decide (xs = ∅)) as [->|Hx].
  { exists st, h. split; [done|]. split; [by split|]. split; [done|]. split; [set_solver|]. split; [by left|done]. }
  destruct (and_step st xs h Hv) as (st' & h' & E & H). exists st', h'. split; [|exact H].
  destruct st as [x|]; [|done]. unfold str_add in E. by rewrite decide_False in E by done.
Qed.

Lemma names_union m1 m2 : names (m1 ∪ m2) = names m1 ∪ names m2.
Proof.
  apply set_eq. intros c. rewrite elem_of_union, !elem_of_names. split.
  - intros (k & [s Hs]). apply lookup_union_Some_raw in Hs as [Hs|[_ Hs]]; [left|right]; exists k; by eexists.
  - intros [(k & [s Hs])|(k & [s Hs])]; exists k; apply lookup_union_is_Some; [left|right]; by eexists.
Qed.

Lemma transfer_mstate h0 h r m xs e : mstate h0 h r m xs -> r_maps e < length (h_map h0) -> valid_str h0 (r_strs e) ->
  exists r' h', transfer_raw r e h = Ok (r', h') /\
    mstate h0 h' r' (mp h0 (r_maps e) ∪ m) (xs ∪ ostr h0 (r_strs e)) /\ r_enc r' = r_enc r /\ r_cpu r' = r_cpu r.
Proof.
  intros [X A K N L M S SN SS H HS SM] He Hst.
  unfold transfer_raw, own_maps. rewrite SM. rewrite (bind_eq _ _ h r h) by done.
  unfold transfer_loops. rewrite (bind_eq _ _ h (mp h (r_maps e)) h) by done.
  rewrite (bind_eq _ _ h (mp h (r_maps r)) h) by done. rewrite M.
  assert (Ee : mp h (r_maps e) = mp h0 (r_maps e)) by (by apply (ext_mp _ _ _ X)). rewrite Ee.
  set (h1 := set_mp h (r_maps r) (mp h0 (r_maps e) ∪ m)).
  rewrite (bind_eq _ _ h tt h1) by done.
  destruct (shr_add_spec (r_shared r) (names (mp h0 (r_maps e))) h1) as (sh & h2 & E2 & O2 & V2 & _).
  destruct V2 as [V2a V2b]; [done|].
  rewrite (bind_eq _ _ _ _ _ E2). rewrite (bind_eq _ _ h2 (ostr h2 (r_strs e)) h2) by done.
  assert (Eo : ostr h2 (r_strs e) = ostr h0 (r_strs e)).
  { unfold ostr. destruct (r_strs e) as [x|] eqn:Ex; [|done]. unfold str. rewrite (os_str _ _ O2). simpl.
    destruct (e_str _ _ X) as [tl ->]. by rewrite lookup_app_l by (by apply Hst). }
  destruct (str_add_spec (r_strs r) (ostr h2 (r_strs e)) h2) as (st & h3 & E3 & O3 & V3 & Q3 & N3 & K3).
  { intros l Hl. rewrite (os_str _ _ O2). by apply S. }
  rewrite (bind_eq _ _ _ _ _ E3). eexists _, h3. split; [reflexivity|]. split; [|done].
  assert (Hm : h_map h3 = h_map h1) by (by rewrite (ot_map _ _ O3), (os_map _ _ O2)).
  assert (Hml : forall l, mp h3 l = if decide (l = r_maps r) then mp h0 (r_maps e) ∪ m else mp h l).
  { intros l. unfold mp at 1. rewrite Hm. unfold h1. simpl. destruct (decide (l = r_maps r)) as [->|Hne].
    - by rewrite list_lookup_insert.
    - by rewrite list_lookup_insert_ne. }
  assert (Hstr2 : h_str h2 = h_str h) by (by rewrite (os_str _ _ O2)).
  split; cbn [r_maps r_shared r_sharedMaps r_strs]; try done.
  - destruct X as [Y1 Y2 Y3 Y4 Y5]. split.
    + by rewrite (ot_arr _ _ O3), (os_arr _ _ O2).
    + apply prefix_of_map; [rewrite Hm; unfold h1; simpl; rewrite insert_length; by apply prefix_length|].
      intros i Hi. rewrite Hml, decide_False by lia. destruct Y2 as [tl Y2]. unfold mp. rewrite Y2. by rewrite lookup_app_l.
    + apply prefix_of_str; [pose proof (ot_len _ _ O3); rewrite Hstr2 in *; apply prefix_length in Y3; lia|].
      intros i Hi. rewrite K3.
      * unfold str. rewrite Hstr2. destruct Y3 as [tl Y3]. rewrite Y3. by rewrite lookup_app_l.
      * rewrite Hstr2. apply prefix_length in Y3. lia.
      * intros Hx. apply SN in Hx. lia.
    + rewrite (ot_shr _ _ O3). pose proof (os_len _ _ O2). unfold h1 in *. simpl in *. lia.
    + intros i. unfold marr. rewrite (ot_mask _ _ O3), (os_mask _ _ O2). apply Y5.
  - by rewrite (ot_arr _ _ O3), (os_arr _ _ O2).
  - by rewrite (ot_mask _ _ O3), (os_mask _ _ O2).
  - rewrite Hm. unfold h1. simpl. by rewrite insert_length.
  - by rewrite Hml, decide_True.
  - intros x Hx. destruct (N3 x Hx) as [Hr|Hr]; [by apply SN|]. rewrite Hstr2 in Hr. pose proof (prefix_length _ _ (e_str _ _ X)). lia.
  - rewrite Q3, Eo. f_equal. rewrite <- SS. unfold ostr. destruct (r_strs r); [|done]. unfold str. by rewrite Hstr2.
  - intros x Hx. rewrite (ot_shr _ _ O3). by apply V2a.
  - transitivity (oshr h2 sh).
    + unfold oshr, shrd. by rewrite (ot_shr _ _ O3).
    + rewrite V2b, names_union. change (oshr h1 (r_shared r)) with (oshr h (r_shared r)). rewrite HS. set_solver.
Qed.

(** The columns of the later ones win. *)
Definition merge_maps (h : heap) (l : list raw) (m : gmap key slice) : gmap key slice :=
  foldl (fun acc e => mp h (r_maps e) ∪ acc) m l.
Definition merge_strs (h : heap) (l : list raw) (xs : gset string) : gset string :=
  foldl (fun acc e => acc ∪ ostr h (r_strs e)) xs l.
Lemma merge_loop_mstate h0 l : forall h r m xs, mstate h0 h r m xs ->
  Forall (fun e => r_maps e < length (h_map h0) /\ valid_str h0 (r_strs e)) l ->
  exists r' h', merge_columns_loop r l h = Ok (r', h') /\ mstate h0 h' r' (merge_maps h0 l m) (merge_strs h0 l xs) /\
    (r_enc r', r_cpu r') = foldl (fun _ e => (r_enc e, r_cpu e)) (r_enc r, r_cpu r) l.
Proof.
  induction l as [|e l IH]; intros h r m xs Ms F; [by exists r, h|].
  apply Forall_cons in F as [[F1 F2] F]. destruct (transfer_mstate h0 h r m xs e Ms F1 F2) as (r1 & h1 & E1 & M1 & _).
  cbn [merge_columns_loop]. rewrite (bind_eq _ _ _ _ _ E1).
  destruct (IH h1 (Raw (r_maps r1) (r_shared r1) (r_sharedMaps r1) (r_enc e) (r_cpu e) (r_strs r1))
    (mp h0 (r_maps e) ∪ m) (xs ∪ ostr h0 (r_strs e))) as (r2 & h2 & E2 & M2 & Q2).
  { destruct M1. split; done. }
  { done. }
  exists r2, h2. done.
Qed.
Lemma merge_raw_columns_mstate h l : Forall (fun e => r_maps e < length (h_map h) /\ valid_str h (r_strs e)) l ->
  exists r h', merge_raw_columns l h = Ok (r, h') /\ mstate h h' r (merge_maps h l ∅) (merge_strs h l ∅) /\
    (r_enc r, r_cpu r) = foldl (fun _ e => (r_enc e, r_cpu e)) (None, max_cpu (-1)) l.
Proof.
  intros F. set (h1 := Heap (h_arr h) (h_mask h) (h_map h ++ [∅]) (h_str h) (h_shr h)).
  set (r0 := Raw (length (h_map h)) None false None (max_cpu (-1)) None).
  unfold merge_raw_columns. rewrite (bind_eq _ _ h r0 h1) by done.
  assert (Hm1 : mp h1 (length (h_map h)) = ∅) by (unfold mp, h1; simpl; by rewrite lookup_app_r, Nat.sub_diag).
  apply (merge_loop_mstate h l h1 r0 ∅ ∅); [|done]. split; simpl; try done.
  - split; try done; by eexists.
  - rewrite app_length. simpl. lia.
Qed.
End frame.
