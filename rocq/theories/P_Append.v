(** append on columns: MergeRawDataRows and the builder. *)
From Verif Require Export M_Build P_Concat.

(** Columns of a raw data object, whatever their lengths. *)
Definition raw_cols (h : heap) (r : raw) : gmap key (list val) := sl_vals h <$> mp h (r_maps r).
Definition typed_cols (cols : gmap key (list val)) : Prop :=
  map_Forall (fun k vs => Forall (fun v => kind_of v = k.1) vs) cols.

Section frame.
Context {rt : GoRT}.

Definition raw_ok (h : heap) (r : raw) : Prop :=
  r_maps r < length (h_map h) /\ map_Forall (fun k s => col_ok h k.1 s) (mp h (r_maps r)).

(** Columns that can be appended to independently. *)
Definition apart_cols (m : gmap key slice) : Prop :=
  forall k1 k2 s1 s2, m !! k1 = Some s1 -> m !! k2 = Some s2 -> k1 <> k2 ->
    s_cap s1 <> 0 -> s_cap s2 <> 0 -> s_arr s1 <> s_arr s2.

Lemma arr_set_arr h l a l' : l < length (h_arr h) ->
  arr (set_arr h l a) l' = if decide (l' = l) then a else arr h l'.
Proof.
  intros Hl. unfold arr, set_arr. simpl. case_decide as E.
  - subst. by rewrite list_lookup_insert.
  - by rewrite list_lookup_insert_ne.
Qed.

Lemma sl_append_spec k s vs h : col_ok h k s -> Forall (fun v => kind_of v = k) vs ->
  exists s' h', sl_append k s vs h = Ok (s', h') /\
    col_ok h' k s' /\ sl_vals h' s' = sl_vals h s ++ vs /\
    h_map h' = h_map h /\ h_mask h' = h_mask h /\ h_str h' = h_str h /\ h_shr h' = h_shr h /\
    length (h_arr h) <= length (h_arr h') /\
    (s_arr s' = s_arr s /\ s_cap s' = s_cap s \/ s_arr s' = length (h_arr h)) /\
    (forall a, a < length (h_arr h) -> (s_cap s <> 0 -> a <> s_arr s) -> h_arr h' !! a = h_arr h !! a).
Proof.
  intros Hok F. pose proof Hok as (H1 & H2 & H3). unfold sl_append. case_decide as Hc.
  - eexists _, _. split; [reflexivity|]. cbn [s_arr s_off s_len s_cap h_map h_mask h_str h_shr set_arr h_arr].
    set (a := arr h (s_arr s)) in *. set (p := s_off s + s_len s).
    set (a' := take p a ++ vs ++ drop (p + length vs) a).
    assert (Hpl : p + length vs <= length a) by (subst p; lia).
    assert (Hla : length a' = length a).
    { unfold a'. rewrite !app_length, take_length, drop_length. lia. }
    destruct (decide (s_arr s < length (h_arr h))) as [Hlt|Hge].
    + assert (Ha : arr (set_arr h (s_arr s) a') (s_arr s) = a') by (rewrite arr_set_arr by done; by rewrite decide_True).
      split; [|split].
      * unfold col_ok. simpl. split; [lia|]. rewrite Ha. split; [lia|].
        unfold a'.
        rewrite drop_app_le by (rewrite take_length; subst p; lia).
        assert (Ht : drop (s_off s) (take p a) = take (s_len s) (drop (s_off s) a)).
        { symmetry. apply firstn_skipn_comm. }
        rewrite Ht.
        assert (F1 : Forall (fun v => kind_of v = k) (take (s_len s) (drop (s_off s) a))).
        { replace (s_len s) with (s_len s `min` s_cap s) by lia. rewrite <- take_take. by apply Forall_take. }
        rewrite take_app_ge by (rewrite take_length, drop_length; lia).
        apply Forall_app. split; [done|].
        rewrite take_length_le by (rewrite drop_length; subst p; lia).
        rewrite take_app_ge by lia. apply Forall_app. split; [done|].
        assert (F2 : drop (p + length vs) a = drop (s_len s + length vs) (drop (s_off s) a)).
        { rewrite drop_drop. f_equal. subst p. lia. }
        rewrite F2.
        replace (s_cap s - s_len s - length vs) with (s_cap s - (s_len s + length vs)) by lia.
        rewrite take_drop_commute. replace (s_len s + length vs + (s_cap s - (s_len s + length vs))) with (s_cap s) by lia.
        by apply Forall_drop.
      * unfold sl_vals. cbn [s_arr s_off s_len s_cap]. rewrite Ha. fold a. unfold a'.
        rewrite drop_app_le by (rewrite take_length; subst p; lia).
        assert (Ht : drop (s_off s) (take p a) = take (s_len s) (drop (s_off s) a)).
        { symmetry. apply firstn_skipn_comm. }
        rewrite Ht. rewrite take_app_ge by (rewrite take_length, drop_length; lia).
        rewrite take_length_le by (rewrite drop_length; subst p; lia).
        replace (s_len s + length vs - s_len s) with (length vs) by lia. by rewrite take_app.
      * do 4 (split; [done|]). split; [by rewrite insert_length|]. split; [by left|].
        intros b Hb Hne. destruct (decide (s_cap s = 0)) as [Hz|Hz].
        -- destruct (decide (b = s_arr s)) as [Eb|Hbs]; [|by rewrite list_lookup_insert_ne].
           rewrite Eb, list_lookup_insert by done.
           assert (vs = []) as -> by (destruct vs; [done|simpl in *; lia]).
           unfold a'. simpl. rewrite Nat.add_0_r, take_drop. unfold a, arr.
           destruct (lookup_lt_is_Some_2 _ _ Hlt) as [y ->]. done.
        -- rewrite list_lookup_insert_ne; [done|]. intros Eb. by apply Hne.
    + assert (Ea : a = []). { unfold a, arr. by rewrite lookup_ge_None_2 by lia. }
      assert (s_cap s = 0 /\ s_off s = 0) as [Hz1 Hz2] by (rewrite Ea in H2; simpl in H2; lia).
      assert (vs = []) as -> by (destruct vs; [done|simpl in *; lia]).
      assert (Es : set_arr h (s_arr s) a' = h).
      { unfold set_arr. rewrite list_insert_ge by lia. by destruct h. }
      rewrite list_insert_ge by lia.
      assert (Hs : Slice (s_arr s) (s_off s) (s_len s + 0) (s_cap s) = s) by (rewrite Nat.add_0_r; by destruct s).
      simpl length. rewrite Hs, Es, app_nil_r.
      split; [done|]. split; [done|]. do 4 (split; [done|]). split; [done|]. split; [by left|]. done.
  - set (n := s_len s + length vs) in *. set (c := rt_grow (s_cap s) n).
    assert (Hcn : n <= c) by apply rt_grow_ok.
    pose proof (col_ok_vals_length _ _ _ Hok) as Hlv.
    eexists _, _. split; [reflexivity|]. simpl.
    set (na := sl_vals h s ++ vs ++ replicate (c - n) (zero_of k)).
    assert (Ha : arr {| h_arr := h_arr h ++ [na]; h_mask := h_mask h; h_map := h_map h; h_str := h_str h; h_shr := h_shr h |} (length (h_arr h)) = na).
    { unfold arr. simpl. by rewrite lookup_app_r, Nat.sub_diag. }
    assert (Hna : length na = c).
    { unfold na. rewrite !app_length, replicate_length, Hlv. subst n. lia. }
    split; [|split].
    + unfold col_ok. simpl. rewrite Ha. split; [done|]. split; [lia|]. rewrite drop_0, take_ge by lia.
      unfold na. apply Forall_app. split; [by eapply col_ok_vals_kind|]. apply Forall_app. split; [done|].
      apply forall_replicate, kind_zero.
    + unfold sl_vals at 1. simpl. rewrite Ha, drop_0. unfold na. rewrite app_assoc.
      rewrite take_app_le by (rewrite app_length, Hlv; subst n; lia).
      rewrite take_ge; [done|]. rewrite app_length, Hlv. subst n. lia.
    + do 4 (split; [done|]). split; [rewrite app_length; lia|]. split; [by right|].
      intros b Hb _. by rewrite lookup_app_l.
Qed.

(** One append to a column of a map object. *)
Definition app_col (l : nat) (k : key) (vs : list val) : M unit :=
  let* m := get_mp l in
  let* s := sl_append k.1 (default nil_slice (m !! k)) vs in put_col l k s.

Record bmap (h : heap) (l : nat) (cols : gmap key (list val)) : Prop := {
  bm_l : l < length (h_map h);
  bm_ok : map_Forall (fun k s => col_ok h k.1 s) (mp h l);
  bm_vals : sl_vals h <$> mp h l = cols;
  bm_dis : apart_cols (mp h l) }.

(** What an append leaves alone. *)
Record app_frame (l : nat) (h h' : heap) : Prop := {
  af_mask : h_mask h' = h_mask h; af_str : h_str h' = h_str h; af_shr : h_shr h' = h_shr h;
  af_len : length (h_map h') = length (h_map h);
  af_map : forall l', l' <> l -> mp h' l' = mp h l';
  af_narr : length (h_arr h) <= length (h_arr h');
  af_arr : forall a, a < length (h_arr h) ->
    (forall k s, mp h l !! k = Some s -> s_cap s <> 0 -> a <> s_arr s) -> h_arr h' !! a = h_arr h !! a;
  af_col : forall k s, mp h' l !! k = Some s ->
    (exists s0, mp h l !! k = Some s0 /\ s_arr s0 = s_arr s /\ s_cap s0 = s_cap s) \/
    length (h_arr h) <= s_arr s \/ s_cap s = 0 }.

Lemma app_frame_refl l h : app_frame l h h.
Proof. split; try done. intros k s Hs. left. eauto. Qed.
Lemma app_frame_trans l h1 h2 h3 : app_frame l h1 h2 -> app_frame l h2 h3 -> app_frame l h1 h3.
Proof.
  intros [A1 A2 A3 A4 A5 A6 A7 A8] [B1 B2 B3 B4 B5 B6 B7 B8].
  split; try congruence; try lia.
  - intros l' Hl. by rewrite B5, A5.
  - intros a Ha Hn. rewrite B7; [by apply A7|lia|].
    intros k s Hs Hz. destruct (A8 k s Hs) as [(s0 & H1 & H2 & H3)|[H|H]]; [|lia|done].
    rewrite <- H2. apply (Hn k s0 H1). congruence.
  - intros k s Hs. destruct (B8 k s Hs) as [(s0 & H1 & H2 & H3)|[H|H]]; [|right; left; lia|by right; right].
    destruct (A8 k s0 H1) as [(s1 & H4 & H5 & H6)|[H|H]].
    + left. exists s1. split; [done|]. split; congruence.
    + right. left. lia.
    + right. right. congruence.
Qed.

Lemma col_ok_arr_eq h h' k s : col_ok h k s ->
  (s_cap s <> 0 -> arr h' (s_arr s) = arr h (s_arr s)) ->
  (s_cap s = 0 -> length (arr h (s_arr s)) <= length (arr h' (s_arr s))) ->
  col_ok h' k s /\ sl_vals h' s = sl_vals h s.
Proof.
  intros Hok E El. destruct (decide (s_cap s = 0)) as [Hz|Hz].
  - destruct Hok as (H1 & H2 & H3). specialize (El Hz). split.
    + split; [done|]. split; [lia|]. rewrite Hz. simpl. by rewrite take_0.
    + rewrite !sl_vals_len0; [done|lia..].
  - specialize (E Hz). unfold col_ok, sl_vals. by rewrite E.
Qed.

Lemma app_col_spec h l cols k vs : bmap h l cols -> Forall (fun v => kind_of v = k.1) vs ->
  exists h', app_col l k vs h = Ok (tt, h') /\ app_frame l h h' /\
    bmap h' l (<[k := default [] (cols !! k) ++ vs]> cols).
Proof.
  intros [Hl Hok Hv Hd] F. unfold app_col. unfold bind at 1, get_mp at 1.
  set (s := default nil_slice (mp h l !! k)).
  assert (Hs : col_ok h k.1 s /\ sl_vals h s = default [] (cols !! k)).
  { unfold s. rewrite <- Hv, lookup_fmap. destruct (mp h l !! k) as [s0|] eqn:E; simpl.
    - split; [by apply (Hok k s0)|done].
    - split; [|done]. split; simpl; [lia|]. split; [lia|]. by rewrite take_0. }
  destruct Hs as [Hs1 Hs2].
  destruct (sl_append_spec k.1 s vs h Hs1 F) as (s' & h1 & E1 & C1 & V1 & M1 & M2 & M3 & M4 & L1 & A1 & O1).
  rewrite (bind_eq _ _ _ _ _ E1). unfold put_col, bind, get_mp, put_mp. simpl.
  eexists. split; [reflexivity|].
  assert (Hmp : forall l', mp (set_mp h1 l (<[k:=s']> (mp h1 l))) l' =
     if decide (l' = l) then <[k:=s']> (mp h l) else mp h l').
  { intros l'. unfold mp, set_mp. simpl. rewrite M1. case_decide as E.
    - subst. by rewrite list_lookup_insert.
    - by rewrite list_lookup_insert_ne. }
  assert (Hmpl : mp (set_mp h1 l (<[k:=s']> (mp h1 l))) l = <[k:=s']> (mp h l)) by (by rewrite Hmp, decide_True).
  assert (Hks : forall s0, mp h l !! k = Some s0 -> s0 = s) by (intros s0 E; unfold s; by rewrite E).
  assert (Hcap : s_cap s <> 0 -> mp h l !! k = Some s).
  { unfold s. destruct (mp h l !! k); done. }
  assert (Hoth : forall k' s0, k' <> k -> mp h l !! k' = Some s0 ->
     col_ok h1 k'.1 s0 /\ sl_vals h1 s0 = sl_vals h s0).
  { intros k' s0 Hne E. specialize (Hok k' s0 E). simpl in Hok.
    apply (col_ok_arr_eq h); [done|..].
    - intros Hz. unfold arr. rewrite O1; [done| |].
      + destruct (decide (s_arr s0 < length (h_arr h))); [done|].
        destruct Hok as (? & H2 & _). unfold arr in H2. rewrite lookup_ge_None_2 in H2 by lia. simpl in H2. lia.
      + intros Hz'. eapply (Hd k' k); eauto.
    - intros Hz. destruct (decide (s_arr s0 < length (h_arr h))) as [Hlt|Hge].
      + destruct (decide (s_cap s <> 0 /\ s_arr s0 = s_arr s)) as [[Hz' Ea]|Hn].
        * destruct A1 as [[Ha Hc]|Ha].
          -- (* appended in place: the length of the array does not change *)
             unfold sl_append in E1. case_decide as Hdec.
             ++ injection E1 as <- <-. simpl in *. rewrite Ea. rewrite arr_set_arr by lia. rewrite decide_True by done.
                destruct Hs1 as (? & ? & _). rewrite !app_length, take_length, drop_length. lia.
             ++ injection E1 as <- <-. simpl in Ha. lia.
          -- unfold sl_append in E1. case_decide as Hdec.
             ++ injection E1 as <- <-. simpl in *. lia.
             ++ injection E1 as <- <-. unfold arr. simpl. by rewrite lookup_app_l.
        * unfold arr. rewrite O1; [done|done|]. intros Hz' Ea. naive_solver.
      + unfold arr. rewrite (lookup_ge_None_2 (h_arr h)) by lia. simpl. lia. }
  split.
  - split; cbn [set_mp h_arr h_mask h_str h_shr h_map]; try done.
    + rewrite insert_length. by rewrite M1.
    + intros l' Hne. by rewrite Hmp, decide_False.
    + intros a Ha Hn. apply O1; [done|]. intros Hz. by apply (Hn k s); [apply Hcap|].
    + intros k' s0. rewrite Hmpl. destruct (decide (k' = k)) as [->|Hne].
      * rewrite lookup_insert. intros [= <-]. destruct A1 as [[Ha Hc]|Ha]; [|right; left; lia].
        destruct (decide (s_cap s = 0)) as [Hz|Hz]; [right; right; congruence|].
        left. exists s. split; [by apply Hcap|done].
      * rewrite lookup_insert_ne by done. intros E. left. eauto.
  - split.
    + cbn [set_mp h_map]. by rewrite insert_length, M1.
    + rewrite Hmpl. intros k' s0. destruct (decide (k' = k)) as [->|Hne].
      * rewrite lookup_insert. intros [= <-]. done.
      * rewrite lookup_insert_ne by done. intros E. by apply Hoth.
    + rewrite Hmpl. rewrite fmap_insert.
      change (sl_vals (set_mp h1 l (<[k:=s']> (mp h1 l)))) with (sl_vals h1).
      rewrite V1, Hs2. apply map_eq. intros k'. destruct (decide (k' = k)) as [->|Hne].
      * by rewrite !lookup_insert.
      * rewrite !lookup_insert_ne by done. rewrite <- Hv, !lookup_fmap.
        destruct (mp h l !! k') as [s0|] eqn:E; [|done]. simpl. f_equal. by apply (Hoth k').
    + rewrite Hmpl.
      assert (Hone : forall k2 s2, k2 <> k -> mp h l !! k2 = Some s2 -> s_cap s' <> 0 -> s_cap s2 <> 0 -> s_arr s' <> s_arr s2).
      { intros k2 s2 Hne E Hz1 Hz2. destruct A1 as [[Ha Hc]|Ha].
        - rewrite Ha. apply (Hd k k2 s s2); [apply Hcap; congruence|done|congruence|congruence|done].
        - specialize (Hok k2 s2 E). simpl in Hok. destruct Hok as (? & H2 & _).
          intros Eq. unfold arr in H2. rewrite lookup_ge_None_2 in H2 by lia. simpl in H2. lia. }
      intros k1 k2 s1 s2. destruct (decide (k1 = k)) as [->|N1]; destruct (decide (k2 = k)) as [->|N2].
      * done.
      * rewrite lookup_insert, lookup_insert_ne by done. intros [= <-] E _. by apply (Hone k2).
      * rewrite lookup_insert, lookup_insert_ne by done. intros E [= <-] _ Hz1 Hz2 Eq. by apply (Hone k1 s1).
      * rewrite !lookup_insert_ne by done. apply Hd.
Qed.

End frame.
