(** Loops that store freshly allocated columns in a map object. *)
From Verif Require Export P_Write.

(** Arrays are only added; apart from map object [l] nothing else changes. *)
Record grow (l : nat) (h h' : heap) : Prop := {
  g_arr : h_arr h `prefix_of` h_arr h';
  g_mask : h_mask h' = h_mask h; g_str : h_str h' = h_str h; g_shr : h_shr h' = h_shr h;
  g_len : length (h_map h') = length (h_map h);
  g_map : forall l', l' <> l -> h_map h' !! l' = h_map h !! l' }.
Global Instance grow_refl l : Reflexive (grow l).
Proof. intros h. by split. Qed.
Global Instance grow_trans l : Transitive (grow l).
Proof.
  intros h1 h2 h3 [] []. split; try congruence.
  - by etrans.
  - intros l' Hl. rewrite g_map1 by done. by apply g_map0.
Qed.

Lemma grow_ext l h0 h h' : ext h0 h -> grow l h h' -> length (h_map h0) <= l -> ext h0 h'.
Proof.
  intros [E1 E2 E3 E4 E5] [] Hl. split.
  - by etrans.
  - exists (drop (length (h_map h0)) (h_map h')). symmetry.
    rewrite <- (take_drop (length (h_map h0)) (h_map h')) at 2. f_equal.
    apply list_eq. intros i. destruct (decide (i < length (h_map h0))) as [Hi|Hi].
    + rewrite lookup_take by done. rewrite g_map0 by lia. destruct E2 as [k ->].
      by rewrite lookup_app_l.
    + rewrite lookup_take_ge by lia. apply lookup_ge_None_2. lia.
  - by rewrite g_str0.
  - by rewrite g_shr0.
  - intros i. unfold marr. rewrite g_mask0. apply E5.
Qed.

Lemma grow_mp l h h' l' : grow l h h' -> l' <> l -> mp h' l' = mp h l'.
Proof. intros [] H. unfold mp. by rewrite g_map0. Qed.
Lemma grow_arr l h h' a : grow l h h' -> a < length (h_arr h) -> arr h' a = arr h a.
Proof. intros [] H. by apply prefix_lookup_default. Qed.
Lemma grow_sl_vals l h h' k s : grow l h h' -> col_ok h k s -> sl_vals h' s = sl_vals h s.
Proof.
  intros H Hok. destruct (col_ok_arr_cases _ _ _ Hok) as [Hl|(Hl & _)].
  - unfold sl_vals. by rewrite (grow_arr _ _ _ _ H).
  - by rewrite !sl_vals_len0.
Qed.
Lemma grow_col_ok l h h' k s : grow l h h' -> col_ok h k s -> col_ok h' k s.
Proof.
  intros H Hok. destruct (col_ok_arr_cases _ _ _ Hok) as [Hl|(Hl & Hc & Ho)].
  - unfold col_ok. by rewrite (grow_arr _ _ _ _ H).
  - unfold col_ok. rewrite Hl, Hc, Ho. simpl. split; [lia|split; [lia|constructor]].
Qed.
Lemma grow_oshr l h h' o : grow l h h' -> oshr h' o = oshr h o.
Proof. intros []. unfold oshr, shrd. by rewrite g_shr0. Qed.
Lemma grow_ostr l h h' o : grow l h h' -> ostr h' o = ostr h o.
Proof. intros []. unfold ostr, str. by rewrite g_str0. Qed.

(** A fresh column with contents [vs]. *)
Definition fresh_col (h0 h : heap) (s : slice) (vs : list val) : Prop :=
  length (h_arr h0) <= s_arr s < length (h_arr h) /\ s_off s = 0 /\
  s_len s = length vs /\ s_cap s = length vs /\ arr h (s_arr s) = vs.

Lemma fresh_col_vals h0 h s vs : fresh_col h0 h s vs -> sl_vals h s = vs.
Proof.
  intros (H1 & H2 & H3 & H4 & H5). unfold sl_vals. rewrite H2, H3, H5. by rewrite drop_0, take_ge.
Qed.
Lemma fresh_col_ok h0 h s vs k : fresh_col h0 h s vs -> Forall (fun v => kind_of v = k) vs ->
  col_ok h k s.
Proof.
  intros (H1 & H2 & H3 & H4 & H5) Hk. unfold col_ok. rewrite H2, H3, H4, H5.
  split; [lia|]. split; [lia|]. by apply Forall_take, Forall_drop.
Qed.
Lemma fresh_col_mono h0 h h' s vs : fresh_col h0 h s vs -> h_arr h `prefix_of` h_arr h' ->
  fresh_col h0 h' s vs.
Proof.
  intros (H1 & H2 & H3 & H4 & H5) Hp. pose proof (prefix_length _ _ Hp).
  split; [lia|]. do 3 (split; [done|]).
  rewrite <- H5. apply prefix_lookup_default; [done|lia].
Qed.
Lemma fresh_col_old h00 h0 h s vs : fresh_col h0 h s vs -> length (h_arr h00) <= length (h_arr h0) ->
  fresh_col h00 h s vs.
Proof. intros (H1 & H2 & H3 & H4 & H5) Hp. split; [lia|done]. Qed.

Lemma put_fresh_spec h l k vs : l < length (h_map h) ->
  exists h' s, (let* s := lit_slice vs in put_col l k s) h = Ok (tt, h') /\ grow l h h' /\
    fresh_col h h' s vs /\ s_arr s = length (h_arr h) /\ mp h' l = <[k := s]> (mp h l).
Proof.
  intros Hl. eexists _, (Slice (length (h_arr h)) 0 (length vs) (length vs)).
  split; [reflexivity|]. split; [|split; [|split]].
  - split; simpl; try done.
    + by eexists.
    + by rewrite insert_length.
    + intros l' Hl'. by rewrite list_lookup_insert_ne.
  - split; [simpl; rewrite app_length; simpl; lia|]. do 3 (split; [reflexivity|]).
    unfold arr. simpl. by rewrite lookup_app_r, Nat.sub_diag.
  - reflexivity.
  - unfold mp. simpl. rewrite list_lookup_insert by done. done.
Qed.

Section fill.
Context {A : Type} (l : nat) (kf : A -> key) (rd : A -> M (list val)) (vals : A -> list val).

Lemma fill_spec (xs : list A) h : l < length (h_map h) ->
  (forall x h1, x ∈ xs -> grow l h h1 -> rd x h1 = Ok (vals x, h1)) ->
  (forall x y, x ∈ xs -> y ∈ xs -> kf x = kf y -> vals x = vals y) ->
  exists h', forM xs (fun x => let* vs := rd x in let* s := lit_slice vs in put_col l (kf x) s) h
             = Ok (tt, h') /\
    grow l h h' /\
    (forall k, k ∉ kf <$> xs -> mp h' l !! k = mp h l !! k) /\
    (forall x, x ∈ xs -> exists s, mp h' l !! kf x = Some s /\ fresh_col h h' s (vals x)) /\
    (forall k1 k2 s1 s2, k1 ∈ kf <$> xs -> k2 ∈ kf <$> xs -> k1 <> k2 ->
       mp h' l !! k1 = Some s1 -> mp h' l !! k2 = Some s2 -> s_arr s1 <> s_arr s2).
Proof.
  intros Hl Hrd Hval. induction xs as [|x xs IH] using rev_ind.
  { exists h. split; [done|]. split; [done|]. split; [done|].
    split; [intros x Hx; by apply elem_of_nil in Hx|].
    intros k1 k2 s1 s2 Hk. by apply elem_of_nil in Hk. }
  destruct IH as (h1 & E1 & G1 & O1 & F1 & D1).
  { intros y h1 Hy. apply Hrd. set_solver. }
  { intros y z Hy Hz. apply Hval; set_solver. }
  destruct (put_fresh_spec h1 l (kf x) (vals x)) as (h2 & s & E2 & G2 & F2 & A2 & M2).
  { by rewrite (g_len _ _ _ G1). }
  assert (Ef : forall (f : A -> M unit) ys y hh, forM (ys ++ [y]) f hh =
      bind (forM ys f) (fun _ => f y) hh).
  { intros f ys y. induction ys as [|z ys IHy]; intros hh; simpl.
    - unfold bind, ret. destruct (f y hh) as [[[] ?]|]; done.
    - unfold bind in *. destruct (f z hh) as [[? ?]|]; [|done]. rewrite IHy. done. }
  exists h2. split.
  { rewrite Ef. rewrite (bind_eq _ _ _ _ _ E1).
    rewrite (bind_eq _ _ _ _ _ (Hrd x h1 ltac:(set_solver) G1)). exact E2. }
  assert (Hp : h_arr h1 `prefix_of` h_arr h2) by apply G2.
  pose proof (prefix_length _ _ (g_arr _ _ _ G1)) as Hlen.
  split; [by etrans|]. split; [|split].
  - intros k Hk. rewrite fmap_app in Hk. rewrite M2, lookup_insert_ne by set_solver.
    apply O1. set_solver.
  - intros y Hy. rewrite M2. destruct (decide (kf x = kf y)) as [E|E].
    + rewrite E, lookup_insert. exists s. split; [done|].
      rewrite <- (Hval x y) by set_solver. by eapply fresh_col_old.
    + rewrite lookup_insert_ne by done.
      apply elem_of_app in Hy as [Hy| ->%elem_of_list_singleton]; [|done].
      destruct (F1 y Hy) as (s' & Hs' & Hf'). exists s'. split; [done|]. by eapply fresh_col_mono.
  - intros k1 k2 s1 s2 H1 H2 Hne. rewrite M2.
    assert (Hold : forall k s', k ∈ kf <$> xs ++ [x] -> kf x <> k -> mp h1 l !! k = Some s' ->
              s_arr s' < length (h_arr h1)).
    { intros k s' Hk Hx Hs'. rewrite fmap_app in Hk. apply elem_of_app in Hk as [Hk|Hk]; [|set_solver].
      apply elem_of_list_fmap in Hk as (y & -> & Hy). destruct (F1 y Hy) as (s'' & Hs'' & Hf).
      rewrite Hs' in Hs''. injection Hs'' as <-. apply Hf. }
    destruct (decide (kf x = k1)) as [<-|N1].
    + rewrite lookup_insert, lookup_insert_ne by done. intros [= <-] Hs2.
      pose proof (Hold k2 s2 H2 Hne Hs2). lia.
    + rewrite lookup_insert_ne by done. intros Hs1. pose proof (Hold k1 s1 H1 N1 Hs1).
      destruct (decide (kf x = k2)) as [<-|N2].
      * rewrite lookup_insert. intros [= <-]. lia.
      * rewrite lookup_insert_ne by done. intros Hs2.
        rewrite fmap_app in H1, H2. eapply (D1 k1 k2); try done; set_solver.
Qed.
End fill.

Lemma make_slice_lit k n : make_slice k n = lit_slice (replicate n (zero_of k)).
Proof. unfold make_slice, lit_slice. by rewrite replicate_length. Qed.
