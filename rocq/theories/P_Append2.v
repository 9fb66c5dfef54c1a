(** MergeRawDataRows, the builder and ToDataFrame. *)
From Verif Require Export P_Append.

Lemma prefix_of_map h0 h : length (h_map h0) <= length (h_map h) ->
  (forall i, i < length (h_map h0) -> mp h i = mp h0 i) -> h_map h0 `prefix_of` h_map h.
Proof.
  intros Hl H. exists (drop (length (h_map h0)) (h_map h)).
  rewrite <- (take_drop (length (h_map h0)) (h_map h)) at 1. f_equal.
  apply list_eq. intros i. destruct (decide (i < length (h_map h0))) as [Hi|Hi].
  - rewrite lookup_take by done. specialize (H i Hi). unfold mp in H.
    destruct (lookup_lt_is_Some_2 (h_map h) i) as [x Ex]; [lia|].
    destruct (lookup_lt_is_Some_2 (h_map h0) i) as [y Ey]; [lia|].
    rewrite Ex, Ey in *. simpl in H. by subst.
  - rewrite lookup_take_ge by lia. symmetry. apply lookup_ge_None_2. lia.
Qed.
Lemma prefix_of_arr h0 h : length (h_arr h0) <= length (h_arr h) ->
  (forall i, i < length (h_arr h0) -> h_arr h !! i = h_arr h0 !! i) -> h_arr h0 `prefix_of` h_arr h.
Proof.
  intros Hl H. exists (drop (length (h_arr h0)) (h_arr h)).
  rewrite <- (take_drop (length (h_arr h0)) (h_arr h)) at 1. f_equal.
  apply list_eq. intros i. destruct (decide (i < length (h_arr h0))) as [Hi|Hi].
  - rewrite lookup_take by done. by apply H.
  - rewrite lookup_take_ge by lia. symmetry. apply lookup_ge_None_2. lia.
Qed.

(** The concatenation of column [k] over several raw data objects. *)
Definition joined (ms : list (gmap key (list val))) (k : key) : list val :=
  concat ((fun m => default [] (m !! k)) <$> ms).

Section frame.
Context {rt : GoRT}.

(** All appendable columns of [l] lie in arrays newer than [h0]. *)
Definition new_cols (h0 h : heap) (l : nat) : Prop :=
  forall k s, mp h l !! k = Some s -> length (h_arr h0) <= s_arr s \/ s_cap s = 0.

Lemma app_frame_ext h0 l h h' : ext h0 h -> length (h_map h0) <= l -> new_cols h0 h l ->
  app_frame l h h' -> ext h0 h' /\ new_cols h0 h' l.
Proof.
  intros [X1 X2 X3 X4 X5] Hl Hn [A1 A2 A3 A4 A5 A6 A7 A8].
  pose proof (prefix_length _ _ X1) as L1. pose proof (prefix_length _ _ X2) as L2.
  split.
  - split; rewrite ?A2, ?A3; try done.
    + apply prefix_of_arr; [lia|]. intros i Hi. rewrite A7; [|lia|].
      * destruct X1 as [tl ->]. by rewrite lookup_app_l.
      * intros k s Hs Hz. destruct (Hn k s Hs); lia.
    + apply prefix_of_map; [lia|]. intros i Hi. rewrite A5 by lia.
      destruct X2 as [tl X2]. unfold mp. rewrite X2. by rewrite lookup_app_l.
    + intros i. unfold marr. rewrite A1. apply X5.
  - intros k s Hs. destruct (A8 k s Hs) as [(s0 & E1 & E2 & E3)|[H|H]]; [|left; lia|by right].
    destruct (Hn k s0 E1); [left|right]; congruence.
Qed.

(** ** One raw data object appended, column by column *)
Lemma app_cols_spec h0 l ps : forall h cols,
  bmap h l cols -> ext h0 h -> length (h_map h0) <= l -> new_cols h0 h l ->
  Forall (fun p : key * slice => col_ok h0 p.1.1 p.2) ps -> NoDup ps.*1 ->
  exists h' cols', forM ps (fun p =>
      let* vs := get_vals p.2 in
      let* mr := get_mp l in
      let* s := sl_append p.1.1 (default nil_slice (mr !! p.1)) vs in
      put_col l p.1 s) h = Ok (tt, h') /\
    app_frame l h h' /\ ext h0 h' /\ new_cols h0 h' l /\ bmap h' l cols' /\
    (forall k, k ∉ ps.*1 -> cols' !! k = cols !! k) /\
    (forall k s, (k, s) ∈ ps -> cols' !! k = Some (default [] (cols !! k) ++ sl_vals h0 s)).
Proof.
  induction ps as [|[k s] ps IH]; intros h cols B X Hl Hn F Hnd.
  - exists h, cols. split; [done|]. split; [apply app_frame_refl|]. split; [done|]. split; [done|]. split; [done|].
    split; [done|]. intros k s Hk. by apply elem_of_nil in Hk.
  - apply Forall_cons in F as [Hs F]. apply NoDup_cons in Hnd as [Hnin Hnd]. simpl in Hs, Hnin.
    assert (Ev : sl_vals h s = sl_vals h0 s) by (by eapply ext_sl_vals).
    destruct (app_col_spec h l cols k (sl_vals h0 s) B) as (h1 & E1 & A1 & B1).
    { by eapply col_ok_vals_kind. }
    destruct (app_frame_ext h0 l h h1 X Hl Hn A1) as [X1 N1].
    destruct (IH h1 _ B1 X1 Hl N1 F Hnd) as (h2 & cols2 & E2 & A2 & X2 & N2 & B2 & K2 & V2).
    exists h2, cols2. split; [|split; [by eapply app_frame_trans|split; [done|split; [done|split; [done|split]]]]].
    + cbn [forM]. rewrite (bind_eq _ _ h tt h1); [exact E2|].
      unfold bind at 1, get_vals. simpl. rewrite Ev. exact E1.
    + intros k' Hk'. simpl in Hk'. rewrite K2 by set_solver. rewrite lookup_insert_ne by set_solver. done.
    + intros k' s' [[= -> ->]|Hin]%elem_of_cons.
      * rewrite K2 by done. by rewrite lookup_insert.
      * rewrite (V2 k' s' Hin). rewrite lookup_insert_ne; [done|].
        intros ->. apply Hnin. apply elem_of_list_fmap. by exists (k', s').
Qed.

Lemma raw_cols_ok_typed h r : raw_ok h r -> typed_cols (raw_cols h r).
Proof.
  intros [_ H] k vs. unfold raw_cols. rewrite lookup_fmap. intros (s & Hs & ->)%fmap_Some.
  eapply col_ok_vals_kind. by apply (H k s).
Qed.

Definition joins (first : gmap key (list val)) (ms : list (gmap key (list val))) (cols : gmap key (list val)) : Prop :=
  forall k, match cols !! k with
            | Some vs => (exists m, m ∈ first :: ms /\ is_Some (m !! k)) /\ vs = joined ms k
            | None => forall m, m ∈ first :: ms -> m !! k = None
            end.

Lemma app_raws_spec h0 l first : forall ds done_ h cols,
  bmap h l cols -> ext h0 h -> length (h_map h0) <= l -> new_cols h0 h l ->
  Forall (raw_ok h0) ds -> joins first done_ cols ->
  exists h' cols', forM ds (fun data =>
        let* m := get_mp (r_maps data) in
        forM (map_to_list m) (fun p =>
          let* vs := get_vals p.2 in
          let* mr := get_mp l in
          let* s := sl_append p.1.1 (default nil_slice (mr !! p.1)) vs in
          put_col l p.1 s)) h = Ok (tt, h') /\
    app_frame l h h' /\ ext h0 h' /\ new_cols h0 h' l /\ bmap h' l cols' /\ joins first (done_ ++ (raw_cols h0 <$> ds)) cols'.
Proof.
  induction ds as [|d ds IH]; intros done_ h cols B X Hl Hn F J.
  - exists h, cols. split; [done|]. split; [apply app_frame_refl|]. do 3 (split; [done|]).
    simpl. by rewrite app_nil_r.
  - apply Forall_cons in F as [[Hd1 Hd2] F].
    assert (Em : mp h (r_maps d) = mp h0 (r_maps d)) by (by eapply ext_mp).
    destruct (app_cols_spec h0 l (map_to_list (mp h0 (r_maps d))) h cols B X Hl Hn) as
      (h1 & cols1 & E1 & A1 & X1 & N1 & B1 & K1 & V1).
    { apply Forall_forall. intros [k s] Hks%elem_of_map_to_list. by apply (Hd2 k s). }
    { apply NoDup_fst_map_to_list. }
    assert (J1 : joins first (done_ ++ [raw_cols h0 d]) cols1).
    { intros k. specialize (J k).
      assert (Hj : joined (done_ ++ [raw_cols h0 d]) k = joined done_ k ++ default [] (raw_cols h0 d !! k)).
      { unfold joined. rewrite fmap_app, concat_app. simpl. by rewrite app_nil_r. }
      assert (Hjn : cols !! k = None -> joined done_ k = []).
      { intros E. rewrite E in J. unfold joined. clear -J.
        assert (H : forall m, m ∈ done_ -> m !! k = None) by (intros m Hm; apply J; by right). clear J.
        induction done_ as [|m ms IHm]; [done|]. simpl. rewrite (H m) by by left. simpl. apply IHm.
        intros m' Hm'. apply H. by right. }
      destruct (mp h0 (r_maps d) !! k) as [s|] eqn:Es.
      - rewrite (V1 k s) by (by apply elem_of_map_to_list).
        assert (Er : raw_cols h0 d !! k = Some (sl_vals h0 s)) by (unfold raw_cols; by rewrite lookup_fmap, Es).
        split; [exists (raw_cols h0 d); split; [set_solver|by rewrite Er]|].
        rewrite Hj, Er. simpl. f_equal. destruct (cols !! k) as [vs|] eqn:Ek; [by destruct J|].
        simpl. symmetry. by apply Hjn.
      - rewrite K1.
        2:{ intros ([k' s'] & -> & Hin%elem_of_map_to_list)%elem_of_list_fmap. simpl in Es. congruence. }
        assert (Er : raw_cols h0 d !! k = None) by (unfold raw_cols; by rewrite lookup_fmap, Es).
        destruct (cols !! k) as [vs|] eqn:Ek.
        + destruct J as [(m & Hm & Hmk) ->]. split; [exists m; split; [set_solver|done]|].
          rewrite Hj, Er. simpl. by rewrite app_nil_r.
        + intros m Hm. apply elem_of_cons in Hm as [->|Hm]; [apply J; by left|].
          apply elem_of_app in Hm as [Hm| ->%elem_of_list_singleton]; [apply J; by right|done]. }
    destruct (IH (done_ ++ [raw_cols h0 d]) h1 cols1 B1 X1 Hl N1 F J1) as (h2 & cols2 & E2 & A2 & X2 & N2 & B2 & J2).
    exists h2, cols2. split; [|split; [by eapply app_frame_trans|split; [done|split; [done|split; [done|]]]]].
    + cbn [forM]. rewrite (bind_eq _ _ h tt h1); [exact E2|].
      unfold bind at 1, get_mp at 1. rewrite Em. exact E1.
    + rewrite <- app_assoc in J2. exact J2.
Qed.

(** Empty columns with capacity, for the columns of the first object. *)
Lemma put_empty_spec h0 l n (ks : list (key * slice)) : forall h cols,
  bmap h l cols -> ext h0 h -> length (h_map h0) <= l -> new_cols h0 h l ->
  exists h' cols', forM ks (fun p => let* s := make_empty_cap p.1.1 n in put_col l p.1 s) h = Ok (tt, h') /\
    ext h0 h' /\ new_cols h0 h' l /\ bmap h' l cols' /\ h_mask h' = h_mask h /\ h_str h' = h_str h /\ h_shr h' = h_shr h /\
    (forall k, k ∈ ks.*1 -> cols' !! k = Some []) /\ (forall k, k ∉ ks.*1 -> cols' !! k = cols !! k).
Proof.
  induction ks as [|[k s0] ks IH]; intros h cols B X Hl Hn.
  - exists h, cols. split; [done|]. do 6 (split; [done|]). split; [|done]. intros k Hk. by apply elem_of_nil in Hk.
  - set (a := length (h_arr h)). set (s := Slice a 0 0 n).
    set (h1 := Heap (h_arr h ++ [replicate n (zero_of k.1)]) (h_mask h) (<[l := <[k := s]> (mp h l)]> (h_map h)) (h_str h) (h_shr h)).
    assert (E1 : (let* s := make_empty_cap k.1 n in put_col l k s) h = Ok (tt, h1)) by done.
    destruct B as [B1 B2 B3 B4].
    assert (Hm : forall l', mp h1 l' = if decide (l' = l) then <[k := s]> (mp h l) else mp h l').
    { intros l'. unfold mp, h1. simpl. case_decide as E.
      - subst. by rewrite list_lookup_insert.
      - by rewrite list_lookup_insert_ne. }
    assert (Hml : mp h1 l = <[k := s]> (mp h l)) by (by rewrite Hm, decide_True).
    assert (Hao : forall i, i < length (h_arr h) -> arr h1 i = arr h i).
    { intros i Hi. unfold arr, h1. simpl. by rewrite lookup_app_l. }
    assert (Hoth : forall k' s', mp h l !! k' = Some s' -> col_ok h1 k'.1 s' /\ sl_vals h1 s' = sl_vals h s').
    { intros k' s' E. specialize (B2 k' s' E). simpl in B2.
      destruct (decide (s_arr s' < length (h_arr h))) as [Hlt|Hge].
      - apply (col_ok_arr_eq h); [done|intros _; by apply Hao|intros _; by rewrite Hao].
      - apply (col_ok_arr_eq h); [done| |].
        + destruct B2 as (? & H2 & _). unfold arr in H2. rewrite lookup_ge_None_2 in H2 by lia. simpl in H2. lia.
        + intros _. unfold arr at 1. rewrite lookup_ge_None_2 by lia. simpl. lia. }
    assert (Hs1 : col_ok h1 k.1 s).
    { split; [simpl; lia|]. assert (arr h1 a = replicate n (zero_of k.1)) as Ea.
      { unfold arr, h1. simpl. unfold a. by rewrite lookup_app_r, Nat.sub_diag. }
      simpl. rewrite Ea, replicate_length, drop_0. split; [lia|].
      apply Forall_take. apply forall_replicate, kind_zero. }
    assert (Bn : bmap h1 l (<[k := []]> cols)).
    { split.
      - simpl. by rewrite insert_length.
      - rewrite Hml. intros k' s'. destruct (decide (k' = k)) as [->|Hne].
        + rewrite lookup_insert. by intros [= <-].
        + rewrite lookup_insert_ne by done. intros E. by apply Hoth.
      - rewrite Hml, fmap_insert. rewrite <- B3. apply map_eq. intros k'.
        destruct (decide (k' = k)) as [->|Hne]; [by rewrite !lookup_insert|].
        rewrite !lookup_insert_ne, !lookup_fmap by done.
        destruct (mp h l !! k') as [s'|] eqn:E; [|done]. simpl. f_equal. by apply (Hoth k').
      - assert (Hd : forall k2 s2, mp h l !! k2 = Some s2 -> s_cap s2 <> 0 -> a <> s_arr s2).
        { intros k2 s2 E Hz Ea. specialize (B2 k2 s2 E). simpl in B2. destruct B2 as (? & H2 & _).
          unfold arr in H2. rewrite lookup_ge_None_2 in H2 by (subst a; lia). simpl in H2. lia. }
        rewrite Hml. intros k1 k2 s1 s2.
        destruct (decide (k1 = k)) as [->|N1]; destruct (decide (k2 = k)) as [->|N2].
        + done.
        + rewrite lookup_insert, lookup_insert_ne by done. intros [= <-] E _ _ Hz. by apply (Hd k2).
        + rewrite lookup_insert, lookup_insert_ne by done. intros E [= <-] _ Hz _. apply not_eq_sym. by apply (Hd k1).
        + rewrite !lookup_insert_ne by done. apply B4. }
    assert (X1 : ext h0 h1).
    { destruct X as [Y1 Y2 Y3 Y4 Y5]. split; try done.
      - simpl. by apply prefix_app_r.
      - apply prefix_of_map; [simpl; rewrite insert_length; by apply prefix_length|].
        intros i Hi. rewrite Hm, decide_False by lia. destruct Y2 as [tl Y2]. unfold mp. rewrite Y2. by rewrite lookup_app_l. }
    assert (N1 : new_cols h0 h1 l).
    { intros k' s'. rewrite Hml. destruct (decide (k' = k)) as [->|Hne].
      - rewrite lookup_insert. intros [= <-]. left. simpl. apply prefix_length, X.
      - rewrite lookup_insert_ne by done. apply Hn. }
    destruct (IH h1 _ Bn X1 Hl N1) as (h2 & cols2 & E2 & X2 & N2 & B5 & M1 & M2 & M3 & K1 & K2).
    exists h2, cols2. split; [cbn [forM]; by rewrite (bind_eq _ _ _ _ _ E1)|].
    split; [done|]. split; [done|]. split; [done|]. split; [by rewrite M1|]. split; [by rewrite M2|]. split; [by rewrite M3|].
    split.
    + intros k' Hk'. simpl in Hk'. destruct (decide (k' ∈ ks.*1)) as [Hin|Hnin]; [by apply K1|].
      rewrite K2 by done. apply elem_of_cons in Hk' as [->|]; [|done]. by rewrite lookup_insert.
    + intros k' Hk'. simpl in Hk'. rewrite K2 by set_solver. rewrite lookup_insert_ne by set_solver. done.
Qed.

Lemma merge_raw_rows_spec h l : Forall (raw_ok h) l ->
  exists r h', merge_raw_rows l h = Ok (r, h') /\ ext h h' /\ raw_ok h' r /\
    r_strs r = None /\ r_enc r = None /\ r_shared r = None /\ r_sharedMaps r = false /\ r_maps r = length (h_map h) /\
    (forall k s, mp h' (r_maps r) !! k = Some s -> length (h_arr h) <= s_arr s \/ s_cap s = 0) /\
    apart_cols (mp h' (r_maps r)) /\
    (forall k, match raw_cols h' r !! k with
       | Some vs => (exists d, d ∈ l /\ is_Some (raw_cols h d !! k)) /\ vs = joined (raw_cols h <$> l) k
       | None => forall d, d ∈ l -> raw_cols h d !! k = None
       end).
Proof.
  intros F. unfold merge_raw_rows.
  set (h1 := Heap (h_arr h) (h_mask h) (h_map h ++ [∅]) (h_str h) (h_shr h)).
  set (r := Raw (length (h_map h)) None false None (max_cpu (-1)) None).
  rewrite (bind_eq _ _ h r h1) by done.
  assert (X1 : ext h h1) by (split; try done; by eexists).
  assert (Hm1 : mp h1 (length (h_map h)) = ∅) by (unfold mp, h1; simpl; by rewrite lookup_app_r, Nat.sub_diag).
  assert (B1 : bmap h1 (length (h_map h)) ∅).
  { split.
    - simpl. rewrite app_length. simpl. lia.
    - rewrite Hm1. apply map_Forall_empty.
    - by rewrite Hm1, fmap_empty.
    - rewrite Hm1. intros k1 k2 s1 s2. by rewrite lookup_empty. }
  assert (N1 : new_cols h h1 (length (h_map h))).
  { intros k s. by rewrite Hm1, lookup_empty. }
  destruct l as [|d0 l].
  { exists r, h1. split; [done|]. split; [done|]. split; [split; [apply B1|apply B1]|]. do 5 (split; [done|]).
    split; [exact N1|]. split; [apply B1|]. intros k. unfold raw_cols. simpl. rewrite Hm1, fmap_empty, lookup_empty.
    intros d Hd. by apply elem_of_nil in Hd. }
  rewrite (bind_eq _ _ h1 ((fun r => num_alloc_rows (mp h1 (r_maps r))) <$> d0 :: l) h1) by done. cbv zeta.
  rewrite (bind_eq _ _ h1 (mp h1 (r_maps d0)) h1) by done.
  pose proof (Forall_cons_1 _ _ _ F) as [[Hd1 Hd2] _].
  rewrite (ext_mp _ _ _ X1) by done.
  set (size := sum_list _).
  destruct (put_empty_spec h (length (h_map h)) size (map_to_list (mp h (r_maps d0))) h1 ∅ B1 X1 ltac:(done) N1) as
    (h2 & cols2 & E2 & X2 & N2 & B2 & M1 & M2 & M3 & K1 & K2).
  rewrite (bind_eq _ _ _ _ _ E2).
  assert (J2 : joins (raw_cols h d0) [] cols2).
  { intros k. destruct (mp h (r_maps d0) !! k) as [s|] eqn:Es.
    - rewrite K1.
      2:{ apply elem_of_list_fmap. exists (k, s). split; [done|]. by apply elem_of_map_to_list. }
      split; [|done]. exists (raw_cols h d0). split; [by left|]. unfold raw_cols. rewrite lookup_fmap, Es. eauto.
    - rewrite K2.
      2:{ intros ([k' s'] & -> & Hin%elem_of_map_to_list)%elem_of_list_fmap. simpl in Es. congruence. }
      rewrite lookup_empty. intros m ->%elem_of_list_singleton. unfold raw_cols. by rewrite lookup_fmap, Es. }
  destruct (app_raws_spec h (length (h_map h)) (raw_cols h d0) (d0 :: l) [] h2 cols2 B2 X2 ltac:(done) N2 F J2) as
    (h3 & cols3 & E3 & A3 & X3 & N3 & B3 & J3).
  rewrite (bind_eq _ _ _ _ _ E3). exists r, h3. split; [done|]. split; [done|].
  split; [split; apply B3|]. do 5 (split; [done|]). split; [exact N3|]. split; [apply B3|].
  intros k. assert (raw_cols h3 r = cols3) as -> by apply B3. specialize (J3 k).
  destruct (cols3 !! k) as [vs|].
  - destruct J3 as [(m & Hm & Hmk) ->]. split; [|done].
    apply elem_of_cons in Hm as [->|Hm]; [exists d0; split; [by left|done]|].
    apply elem_of_list_fmap in Hm as (d & -> & Hd). eauto.
  - intros d Hd. apply J3. right. by apply (elem_of_list_fmap_1 (raw_cols h)).
Qed.

(** ** ToDataFrame *)
Lemma nar_ord_in (m : gmap key slice) ord : ord ≡ₚ map_to_list m ->
  (m = ∅ /\ nar_ord ord = 0) \/ exists k s, m !! k = Some s /\ nar_ord ord = s_len s.
Proof.
  intros Hp.
  assert (Hk : forall kd, match first_kind kd ord with
     | Some s => exists k, m !! k = Some s
     | None => forall k s, m !! k = Some s -> k.1 <> kd end).
  { intros kd. unfold first_kind. destruct (filter _ ord) as [|[k s] l] eqn:E; simpl.
    - intros k s Hs <-. assert ((k, s) ∈ filter (fun p : key * slice => p.1.1 = k.1) ord) as Hin.
      { apply elem_of_list_filter. split; [done|]. rewrite Hp. by apply elem_of_map_to_list. }
      rewrite E in Hin. by apply elem_of_nil in Hin.
    - assert ((k, s) ∈ filter (fun p : key * slice => p.1.1 = kd) ord) as Hin by (rewrite E; by left).
      apply elem_of_list_filter in Hin as [_ Hin]. rewrite Hp in Hin. exists k. by apply elem_of_map_to_list. }
  unfold nar_ord. pose proof (Hk KObj) as H1. pose proof (Hk KFloat) as H2.
  pose proof (Hk KInt) as H3. pose proof (Hk KBool) as H4.
  destruct (first_kind KObj ord); [destruct H1; eauto|].
  destruct (first_kind KFloat ord); [destruct H2; eauto|].
  destruct (first_kind KInt ord); [destruct H3; eauto|].
  destruct (first_kind KBool ord); [destruct H4; eauto|].
  left. split; [|done]. apply map_empty. intros k. destruct (m !! k) as [s|] eqn:E; [|done].
  exfalso. destruct k as [[] c]; [by eapply H1|by eapply H2|by eapply H3|by eapply H4].
Qed.

End frame.
