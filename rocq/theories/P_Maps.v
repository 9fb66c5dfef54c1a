(** Lemmas on headers, map objects and reallocateMaps. *)
From Verif Require Export P_Base.

Ltac inv_ok :=
  repeat match goal with
  | H : bind _ _ _ = Ok (_, _) |- _ =>
      let a := fresh "a" in let h := fresh "h" in let H1 := fresh "H" in
      apply bind_ok in H as (a & h & H1 & H)
  | H : ret _ _ = Ok (_, _) |- _ => apply ret_ok in H as [<- <-] || apply ret_ok in H as [? ?]; subst
  | H : lift _ _ = Ok (_, _) |- _ => apply lift_ok in H as [? ?]; subst
  | H : get_mp _ _ = Ok (_, _) |- _ => injection H as <- <-
  | H : get_ostr _ _ = Ok (_, _) |- _ => injection H as <- <-
  | H : get_oshr _ _ = Ok (_, _) |- _ => injection H as <- <-
  | H : put_mp _ _ _ = Ok (_, _) |- _ => injection H as <- <-
  | H : new_mp _ _ = Ok (_, _) |- _ => injection H as <- <-
  end.

Definition valid_str (h : heap) (o : option nat) : Prop :=
  forall l, o = Some l -> l < length (h_str h).
Definition valid_shr (h : heap) (o : option nat) : Prop :=
  forall l, o = Some l -> l < length (h_shr h).

(** Only the [shared] headers change. *)
Record only_shr (h h' : heap) : Prop := {
  os_arr : h_arr h' = h_arr h; os_mask : h_mask h' = h_mask h;
  os_map : h_map h' = h_map h; os_str : h_str h' = h_str h;
  os_len : length (h_shr h) <= length (h_shr h') }.
Global Instance only_shr_refl : Reflexive only_shr.
Proof. intros h; by split. Qed.
Global Instance only_shr_trans : Transitive only_shr.
Proof. intros h1 h2 h3 [] []; split; try congruence; lia. Qed.
Lemma only_shr_ext h h' : only_shr h h' -> ext h h'.
Proof.
  intros []. split; rewrite ?os_arr0, ?os_map0, ?os_str0; try done.
  intros l. unfold marr. by rewrite os_mask0.
Qed.

Lemma shr_add_spec o xs h : exists o' h', shr_add o xs h = Ok (o', h') /\ only_shr h h' /\
  (valid_shr h o -> valid_shr h' o' /\ oshr h' o' = oshr h o ∪ xs) /\
  (forall l, o = Some l -> o' = Some l).
Proof.
  unfold shr_add. destruct (decide (xs = ∅)) as [->|Hne].
  { exists o, h. split; [done|]. split; [done|]. split; [|done]. intros Hv; split; [done|set_solver]. }
  destruct o as [l|].
  - exists (Some l), (set_shr h l (shrd h l ∪ xs)). split; [done|].
    split; [split; simpl; try done; by rewrite insert_length|]. split; [|done].
    intros Hv. split.
    + intros l' [= ->]. simpl. rewrite insert_length. by apply Hv.
    + simpl. unfold shrd. simpl. by rewrite list_lookup_insert by by apply Hv.
  - eexists (Some (length (h_shr h))), _. split; [reflexivity|].
    split; [split; simpl; try done; rewrite app_length; lia|]. split; [|done].
    intros _. split.
    + intros l [= <-]. simpl. rewrite app_length. simpl. lia.
    + simpl. unfold shrd. simpl. rewrite lookup_app_r, Nat.sub_diag by done. simpl. set_solver.
Qed.

Lemma shr_remove_spec o xs h : exists h', shr_remove o xs h = Ok (tt, h') /\ only_shr h h' /\
  length (h_shr h') = length (h_shr h) /\
  (valid_shr h o -> oshr h' o = oshr h o ∖ xs).
Proof.
  unfold shr_remove. destruct o as [l|].
  - exists (set_shr h l (shrd h l ∖ xs)). split; [done|].
    split; [split; simpl; try done; by rewrite insert_length|].
    split; [simpl; by rewrite insert_length|].
    intros Hv. simpl. unfold shrd. simpl. by rewrite list_lookup_insert by by apply Hv.
  - exists h. do 3 (split; [done|]). intros _. simpl. set_solver.
Qed.

(** Adding string marks to a nil header allocates. *)
Record only_new_str (h h' : heap) : Prop := {
  ns_arr : h_arr h' = h_arr h; ns_mask : h_mask h' = h_mask h;
  ns_map : h_map h' = h_map h; ns_shr : h_shr h' = h_shr h;
  ns_str : h_str h `prefix_of` h_str h' }.
Lemma only_new_str_ext h h' : only_new_str h h' -> ext h h'.
Proof.
  intros []. split; rewrite ?ns_arr0, ?ns_map0, ?ns_shr0; try done.
  intros l. unfold marr. by rewrite ns_mask0.
Qed.
Lemma str_add_none_spec xs h : exists o' h', str_add None xs h = Ok (o', h') /\
  only_new_str h h' /\ valid_str h' o' /\ ostr h' o' = xs /\
  (forall l, o' = Some l -> length (h_str h) <= l).
Proof.
  unfold str_add. destruct (decide (xs = ∅)) as [->|Hne].
  { exists None, h. split; [done|]. split; [by split|]. done. }
  eexists (Some (length (h_str h))), _. split; [reflexivity|]. split; [|split; [|split]].
  - split; simpl; try done. by eexists.
  - intros l [= <-]. simpl. rewrite app_length. simpl. lia.
  - simpl. unfold str. simpl. by rewrite lookup_app_r, Nat.sub_diag.
  - by intros l [= <-].
Qed.

Lemma mp_new h m : mp (Heap (h_arr h) (h_mask h) (h_map h ++ [m]) (h_str h) (h_shr h))
                      (length (h_map h)) = m.
Proof. unfold mp. simpl. by rewrite lookup_app_r, Nat.sub_diag. Qed.

Section frame.
Context {rt : GoRT}.

(** Transfer into a fresh RawData whose map object is the last one. *)
Lemma transfer_fresh_spec (data from : raw) h :
  r_maps data = length (h_map h) - 1 -> h_map h <> [] -> mp h (r_maps data) = ∅ ->
  r_shared data = None -> r_strs data = None -> r_maps from < length (h_map h) - 1 ->
  exists r' h', transfer_loops data from h = Ok (r', h') /\
    h_arr h' = h_arr h /\ h_mask h' = h_mask h /\
    length (h_map h') = length (h_map h) /\
    take (length (h_map h) - 1) (h_map h') = take (length (h_map h) - 1) (h_map h) /\
    h_str h `prefix_of` h_str h' /\ length (h_shr h) <= length (h_shr h') /\
    mp h' (r_maps r') = mp h (r_maps from) /\ r_maps r' = r_maps data /\
    valid_shr h' (r_shared r') /\ oshr h' (r_shared r') = names (mp h (r_maps from)) /\
    valid_str h' (r_strs r') /\ ostr h' (r_strs r') = ostr h (r_strs from) /\
    r_sharedMaps r' = r_sharedMaps data /\ r_enc r' = r_enc data /\ r_cpu r' = r_cpu data.
Proof.
  intros Hl Hne Hmp Hsh Hst Hfrom. unfold transfer_loops.
  assert (0 < length (h_map h)) as Hpos by (destruct (h_map h); [done|simpl; lia]).
  set (h1 := set_mp h (r_maps data) (mp h (r_maps from) ∪ mp h (r_maps data))).
  destruct (shr_add_spec (r_shared data) (names (mp h (r_maps from))) h1)
    as (sh & h2 & E2 & O2 & V2 & _).
  destruct V2 as [V2a V2b]; [rewrite Hsh; intros l [=]|].
  destruct (str_add_none_spec (ostr h2 (r_strs from)) h2) as (st & h3 & E3 & O3 & V3 & S3 & _).
  eexists _, h3. split.
  { unfold bind, get_mp, put_mp, ret. fold h1. rewrite E2. unfold get_ostr. by rewrite Hst, E3. }
  destruct O2, O3. simpl.
  assert (h_map h3 = h_map h1) as Hm by congruence.
  split; [rewrite ns_arr0, os_arr0; done|].
  split; [rewrite ns_mask0, os_mask0; done|].
  split; [rewrite Hm; unfold h1; simpl; by rewrite insert_length|].
  split; [rewrite Hm; unfold h1; simpl; rewrite take_insert by lia; done|].
  split; [rewrite os_str0 in ns_str0; done|].
  split; [rewrite ns_shr0; done|].
  split.
  { unfold mp at 1. rewrite Hm. unfold h1. simpl. rewrite list_lookup_insert by lia. simpl.
    by rewrite Hmp, (right_id_L ∅ (∪)). }
  split; [done|].
  split; [intros l Hls; rewrite ns_shr0; by apply V2a|].
  split.
  { unfold oshr in *. destruct sh as [l|]; simpl in *.
    - unfold shrd in *. rewrite ns_shr0, V2b, Hsh. simpl. set_solver.
    - rewrite Hsh in V2b. simpl in V2b. set_solver. }
  split; [done|]. split; [|done].
  rewrite S3. unfold ostr, str. destruct (r_strs from); [|done]. by rewrite os_str0.
Qed.

(** reallocateMaps: a fresh map object with the same columns; nothing else
    visible changes. *)
Lemma reallocate_maps_spec r h : r_maps r < length (h_map h) ->
  exists r' h', reallocate_maps r h = Ok (r', h') /\ ext h h' /\ h_arr h' = h_arr h /\
    h_mask h' = h_mask h /\
    r_maps r' = length (h_map h) /\ length (h_map h') = S (length (h_map h)) /\
    mp h' (r_maps r') = mp h (r_maps r) /\ r_sharedMaps r' = false /\
    valid_shr h' (r_shared r') /\ oshr h' (r_shared r') = names (mp h (r_maps r)) /\
    r_strs r' = r_strs r /\ r_enc r' = r_enc r /\ r_cpu r' = r_cpu r.
Proof.
  intros Hr. unfold reallocate_maps, new_raw.
  set (h1 := Heap (h_arr h) (h_mask h) (h_map h ++ [∅]) (h_str h) (h_shr h)).
  destruct (transfer_fresh_spec (Raw (length (h_map h)) None false None (max_cpu (-1)) None) r h1)
    as (r' & h' & E & A1 & A2 & A3 & A4 & A5 & A6 & A7 & A8 & A9 & A10 & A11 & A12 & A13 & A14 & A15).
  { unfold h1; simpl. rewrite app_length. simpl. lia. }
  { unfold h1; simpl. intros H%(f_equal length). rewrite app_length in H. simpl in H. lia. }
  { apply mp_new. } { done. } { done. }
  { unfold h1; simpl. rewrite app_length. simpl. lia. }
  unfold h1 in A3, A4; simpl in A3, A4. rewrite app_length in A3, A4. simpl in A3, A4.
  assert (mp h1 (r_maps r) = mp h (r_maps r)) as Hmp.
  { unfold mp, h1. simpl. by rewrite lookup_app_l. }
  eexists _, h'. split.
  { unfold bind, new_mp, ret. fold h1. by rewrite E. }
  split.
  { split; try done.
    - by rewrite A1.
    - replace (length (h_map h) + 1 - 1) with (length (h_map h)) in A4 by lia.
      rewrite take_app in A4. exists (drop (length (h_map h)) (h_map h')).
      rewrite <- A4 at 1. by rewrite take_drop.
    - intros l. unfold marr. by rewrite A2. }
  split; [done|]. split; [done|]. split; [done|]. split; [simpl; lia|].
  split; [simpl; by rewrite A7|]. split; [done|]. split; [done|].
  split; [simpl; by rewrite A10, Hmp|]. done.
Qed.

(** [if data.sharedMaps { data.reallocateMaps() }] *)
Lemma own_maps_spec r h : r_maps r < length (h_map h) -> valid_shr h (r_shared r) ->
  exists r' h', own_maps r h = Ok (r', h') /\ ext h h' /\ h_arr h' = h_arr h /\
    h_mask h' = h_mask h /\
    r_maps r' < length (h_map h') /\
    mp h' (r_maps r') = mp h (r_maps r) /\ r_sharedMaps r' = false /\
    valid_shr h' (r_shared r') /\
    r_strs r' = r_strs r /\ r_enc r' = r_enc r /\ r_cpu r' = r_cpu r /\
    (r_sharedMaps r = true -> r_maps r' = length (h_map h) /\
        length (h_map h') = S (length (h_map h)) /\
        oshr h' (r_shared r') = names (mp h (r_maps r))) /\
    (r_sharedMaps r = false -> r' = r /\ h' = h).
Proof.
  intros Hr Hv. unfold own_maps. destruct (r_sharedMaps r) eqn:E.
  - destruct (reallocate_maps_spec r h Hr)
      as (r' & h' & E1 & A1 & A2 & A3 & A4 & A5 & A6 & A7 & A8 & A9 & A10 & A11 & A12).
    exists r', h'. rewrite E1. repeat (split; [done || lia|]). done.
  - exists r, h. split; [done|]. repeat (split; [done|]). done.
Qed.
End frame.
