(** Proofs about utils, headers and short names. *)
From Verif Require Export M_Utils P_Over P_Share P_Priv.

(** ** MakeRange *)
Lemma mr_loop_spec iv m : forall n to, (0 < iv)%Z -> (to = n + Z.of_nat m * iv)%Z ->
  mr_loop m n to iv = Ok ((fun i => (n + Z.of_nat i * iv)%Z) <$> seq 0 m).
Proof.
  induction m as [|m IH]; intros n to Hi Ht; cbn [mr_loop].
  - rewrite decide_False by lia. done.
  - rewrite decide_True by lia. rewrite (IH (n + iv)%Z to) by lia.
    f_equal. change (seq 0 (S m)) with (0 :: seq 1 m). rewrite fmap_cons. f_equal; [lia|].
    rewrite <- fmap_S_seq, <- list_fmap_compose. apply list_fmap_ext. intros i x _. simpl. lia.
Qed.
Lemma mr_loop_panic iv m : forall n to, (0 < iv)%Z -> (n + Z.of_nat m * iv < to)%Z -> mr_loop m n to iv = Panic.
Proof.
  induction m as [|m IH]; intros n to Hi Ht; cbn [mr_loop].
  - by rewrite decide_True by lia.
  - rewrite decide_True by lia. by rewrite IH by lia.
Qed.

(** ** SplitStringSlice *)
(** Groups of [g] elements, the last ones possibly shorter or empty. *)
Definition groups_upto {A} (g n i : nat) (s : list A) : list (list A) :=
  ((fun j => take g (drop (j * g) s)) <$> seq 0 i) ++ replicate (n - i) [].

Lemma split_groups_spec (s : list string) g n fuel : forall i, 0 < g -> length s <= n * g ->
  (i * g < length s + g) -> i <= n -> length s - i * g <= fuel ->
  split_groups fuel (GroupIndexer (Z.of_nat n) (Z.of_nat g) (Z.of_nat ((i * g) `min` length s)) (Z.of_nat (length s)) (Z.of_nat i)) s
    (groups_upto g n i s) = Ok ((fun j => take g (drop (j * g) s)) <$> seq 0 n).
Proof.
  induction fuel as [|fuel IH]; intros i Hg Hn Hi Hin Hf.
  - assert (Hge : length s <= i * g) by lia. cbn [split_groups].
    unfold gi_has_next. rewrite bool_decide_eq_false_2 by (simpl; lia).
    f_equal. unfold groups_upto. 
    replace n with (i + (n - i)) at 2 by lia. rewrite seq_app, fmap_app. f_equal.
    apply list_eq. intros j. rewrite list_lookup_fmap. destruct (decide (j < n - i)) as [Hj|Hj].
    + rewrite lookup_replicate_2, lookup_seq_lt by done. simpl. f_equal. rewrite drop_ge; [by rewrite take_nil|]. nia.
    + rewrite !(proj2 (lookup_ge_None _ _)); [done| |]; rewrite ?seq_length, ?replicate_length; lia.
  - cbn [split_groups]. unfold gi_has_next. simpl gi_elem. simpl gi_end.
    destruct (decide (i * g < length s)) as [Hlt|Hge].
    + rewrite bool_decide_eq_true_2 by lia. cbn [gi_next gi_elem gi_size gi_end gi_group gi_groups].
      assert (Hi2 : i < n) by nia.
      replace (Z.of_nat ((i * g) `min` length s)) with (Z.of_nat (i * g)) by lia.
      assert (Hnx : (if decide (Z.of_nat (length s) < Z.of_nat (i * g) + Z.of_nat g)%Z
                     then Z.of_nat (length s) else (Z.of_nat (i * g) + Z.of_nat g)%Z) =
                    Z.of_nat ((S i * g) `min` length s)).
      { case_decide; simpl; lia. }
      rewrite Hnx. clear Hnx.
      assert (Hlen : length (groups_upto g n i s) = n).
      { unfold groups_upto. rewrite app_length, fmap_length, seq_length, replicate_length. lia. }
      rewrite decide_True by (rewrite Hlen; lia).
      replace (Z.of_nat i + 1)%Z with (Z.of_nat (S i)) by lia.
      rewrite !Nat2Z.id.
      assert (Hins : <[i := take (Z.to_nat (Z.of_nat ((S i * g) `min` length s) - Z.of_nat (i * g))) (drop (i * g) s)]>
                       (groups_upto g n i s) = groups_upto g n (S i) s).
      { unfold groups_upto. rewrite insert_app_r_alt by (rewrite fmap_length, seq_length; lia).
        rewrite fmap_length, seq_length, Nat.sub_diag.
        rewrite seq_S, fmap_app, <- app_assoc. f_equal.
        replace (n - i) with (S (n - S i)) by lia. simpl. f_equal.
        destruct (decide (S i * g <= length s)).
        - f_equal. lia.
        - rewrite !take_ge; [done| |]; rewrite drop_length; lia. }
      rewrite Hins. apply IH; lia.
    + rewrite bool_decide_eq_false_2 by lia. f_equal. unfold groups_upto. 
      replace n with (i + (n - i)) at 2 by lia. rewrite seq_app, fmap_app. f_equal.
      apply list_eq. intros j. rewrite list_lookup_fmap. destruct (decide (j < n - i)) as [Hj|Hj].
      * rewrite lookup_replicate_2, lookup_seq_lt by done. simpl. f_equal. rewrite drop_ge; [by rewrite take_nil|]. nia.
      * rewrite !(proj2 (lookup_ge_None _ _)); [done| |]; rewrite ?seq_length, ?replicate_length; lia.
Qed.

Lemma concat_groups {A} (s : list A) g n : length s <= n * g ->
  concat ((fun j => take g (drop (j * g) s)) <$> seq 0 n) = s.
Proof.
  revert s. induction n as [|n IH]; intros s Hl.
  - destruct s; [done|simpl in Hl; lia].
  - change (seq 0 (S n)) with (0 :: seq 1 n). rewrite fmap_cons. cbn [concat].
    rewrite <- fmap_S_seq, <- list_fmap_compose.
    transitivity (take g s ++ drop g s); [|apply take_drop]. f_equal. etransitivity; [|apply (IH (drop g s)); rewrite drop_length; lia].
    f_equal. apply list_fmap_ext. intros j x _. simpl. rewrite drop_drop. f_equal.
Qed.

Lemma split_string_slice_spec s (ng : Z) : s <> [] -> (0 < ng)%Z ->
  let n := Z.to_nat ng `min` length s in
  exists g, 0 < g /\ length s <= n * g /\
    split_string_slice s ng = Ok ((fun j => take g (drop (j * g) s)) <$> seq 0 n).
Proof.
  intros Hs Hng n.
  assert (Hlen : 0 < length s) by (destruct s; [done|simpl; lia]).
  assert (Hn : 0 < n) by lia.
  set (q := Z.quot (Z.of_nat (length s)) (Z.of_nat n)).
  set (g := Z.to_nat (if decide (Z.rem (Z.of_nat (length s)) (Z.of_nat n) = 0)%Z then q else (q + 1)%Z)).
  assert (Hq : (Z.of_nat (length s) = Z.of_nat n * q + Z.rem (Z.of_nat (length s)) (Z.of_nat n))%Z).
  { apply Z.quot_rem'. }
  assert (Hr : (0 <= Z.rem (Z.of_nat (length s)) (Z.of_nat n) < Z.of_nat n)%Z) by (apply Z.rem_bound_pos; lia).
  assert (Hq1 : (1 <= q)%Z).
  { assert (Z.of_nat n <= Z.of_nat (length s))%Z by lia. nia. }
  assert (Hg : 0 < g) by (unfold g; case_decide; lia).
  assert (Hng2 : length s <= n * g).
  { unfold g. case_decide; [nia|]. nia. }
  exists g. split; [done|]. split; [done|]. unfold split_string_slice.
  rewrite decide_False by (intros [?|?]; [done|lia]). unfold create_group_indexer.
  rewrite decide_False by lia.
  assert (E : (if decide (Z.of_nat (length s) < ng)%Z then Z.of_nat (length s) else ng) = Z.of_nat n).
  { case_decide; lia. }
  rewrite E. rewrite decide_False by lia. fold q. cbn [gi_groups].
  rewrite Nat2Z.id.
  pose proof (split_groups_spec s g n (length s) 0 Hg Hng2 ltac:(lia) ltac:(lia) ltac:(lia)) as H.
  unfold groups_upto in H. simpl in H. rewrite Nat.sub_0_r in H. rewrite <- H. f_equal. f_equal.
  unfold g. case_decide; lia.
Qed.

Lemma index_of_string_from_spec e l : forall k,
  (index_of_string_from k e l = (-1)%Z /\ e ∉ l) \/
  (exists i, index_of_string_from k e l = (k + Z.of_nat i)%Z /\ l !! i = Some e /\ forall j, j < i -> l !! j <> Some e).
Proof.
  induction l as [|v l IH]; intros k; cbn [index_of_string_from].
  - left. split; [done|apply not_elem_of_nil].
  - case_decide as Hd.
    + right. subst. exists 0. split; [lia|]. split; [done|]. intros j Hj. lia.
    + destruct (IH (k + 1)%Z) as [[-> Hn]|(i & -> & Hi & Hm)].
      * left. split; [done|]. apply not_elem_of_cons. done.
      * right. exists (S i). split; [lia|]. split; [done|]. intros [|j] Hj; simpl; [congruence|]. apply Hm. lia.
Qed.

(** ** Headers *)
Section frame.
Context {rt : GoRT}.

(** The header is new since [h0]: its map is younger. *)
Definition young_hd (h0 h : heap) (x : header) : Prop :=
  forall l, x = Some l -> length (h_str h0) <= l /\ l < length (h_str h).

Lemma ext_set_str h h1 l x : ext h h1 -> length (h_str h) <= l -> ext h (set_str h1 l x).
Proof.
  intros [E1 E2 E3 E4 E5] Hl. split; try done. simpl.
  destruct E3 as [k ->]. rewrite insert_app_r_alt by done. by eexists.
Qed.

Lemma ext_new_str h0 h s : ext h0 h ->
  ext h0 (Heap (h_arr h) (h_mask h) (h_map h) (h_str h ++ [s]) (h_shr h)).
Proof. intros [E1 E2 E3 E4 E5]. split; try done. simpl. by apply prefix_app_r. Qed.
Lemma ostr_new h s : ostr (Heap (h_arr h) (h_mask h) (h_map h) (h_str h ++ [s]) (h_shr h)) (Some (length (h_str h))) = s.
Proof. unfold ostr, str. simpl. by rewrite lookup_app_r, Nat.sub_diag. Qed.

(** A new header with the given names. *)
Definition fresh_hd (h h' : heap) (x : header) (s : gset string) : Prop :=
  ext h h' /\ ostr h' x = s /\ young_hd h h' x /\ h_arr h' = h_arr h /\ h_map h' = h_map h.
Lemma new_hd h s : exists x h', (let* l := new_str s in ret (Some l)) h = Ok (x, h') /\
  fresh_hd h h' x s /\ x = Some (length (h_str h)) /\ h_str h' = h_str h ++ [s].
Proof.
  eexists _, _. split; [reflexivity|]. split; [|done]. split; [apply ext_new_str, ext_refl|].
  split; [apply ostr_new|]. split; [|done]. intros l [= <-]. simpl. rewrite app_length. simpl. lia.
Qed.
Lemma kind_header_spec h k r : exists x h', kind_header k r h = Ok (x, h') /\
  fresh_hd h h' x (names_of k (mp h (r_maps r))).
Proof.
  unfold kind_header. unfold bind at 1, get_mp. case_decide as Hz.
  - exists None, h. split; [done|]. rewrite Hz. split; [apply ext_refl|]. done.
  - destruct (new_hd h (names_of k (mp h (r_maps r)))) as (x & h' & E & ? & _). eauto.
Qed.
Lemma hd_copy_spec h x : valid_str h x -> exists x' h', hd_copy x h = Ok (x', h') /\ fresh_hd h h' x' (ostr h x).
Proof.
  intros V. destruct x as [l|].
  - destruct (new_hd h (ostr h (Some l))) as (x & h' & E & ? & _). exists x, h'. split; [exact E|done].
  - exists None, h. split; [done|]. split; [apply ext_refl|]. done.
Qed.

(** In place changes of one header: only its own map changes. *)
Record hd_upd (x : header) (h h' : heap) : Prop := {
  hu_arr : h_arr h' = h_arr h; hu_mask : h_mask h' = h_mask h; hu_map : h_map h' = h_map h;
  hu_shr : h_shr h' = h_shr h; hu_len : length (h_str h') = length (h_str h);
  hu_str : forall l, x <> Some l -> str h' l = str h l }.
Lemma hd_upd_refl x h : hd_upd x h h. Proof. by split. Qed.
Lemma hd_upd_trans x h1 h2 h3 : hd_upd x h1 h2 -> hd_upd x h2 h3 -> hd_upd x h1 h3.
Proof.
  intros [] []. split; try congruence. intros l Hl.
  match goal with H : forall l, _ -> str h3 l = _ |- _ => rewrite H by done end. auto.
Qed.
Lemma hd_upd_ext x h0 h h' : ext h0 h -> young_hd h0 h x -> hd_upd x h h' -> ext h0 h' /\ young_hd h0 h' x.
Proof.
  intros [E1 E2 E3 E4 E5] Y [U1 U2 U3 U4 U5 U6]. split.
  - split.
    + by rewrite U1. + by rewrite U3.
    + destruct E3 as [tl E3]. exists (drop (length (h_str h0)) (h_str h')).
      rewrite <- (take_drop (length (h_str h0)) (h_str h')) at 1. f_equal.
      apply list_eq. intros i. destruct (decide (i < length (h_str h0))) as [Hi|Hi].
      * rewrite lookup_take by done.
        assert (str h' i = str h i) as Hs.
        { apply U6. intros ->. destruct (Y i eq_refl). lia. }
        unfold str in Hs. rewrite E3, lookup_app_l in Hs by done.
        destruct (lookup_lt_is_Some_2 (h_str h') i) as [a Ha]; [rewrite U5, E3, app_length; lia|].
        destruct (lookup_lt_is_Some_2 (h_str h0) i) as [b Hb]; [done|].
        rewrite Ha, Hb in Hs. simpl in Hs. rewrite Ha, Hb. congruence.
      * rewrite !(proj2 (lookup_ge_None _ _)); [done| |]; [lia|]. rewrite take_length. lia.
    + by rewrite U4.
    + intros l. unfold marr. rewrite U2. apply E5.
  - intros l Hl. destruct (Y l Hl). by rewrite U5.
Qed.
Lemma str_remove_upd x s h : valid_str h x -> exists h', str_remove x s h = Ok (tt, h') /\ hd_upd x h h' /\
  ostr h' x = ostr h x ∖ s.
Proof.
  intros V. destruct x as [l|].
  - exists (set_str h l (str h l ∖ s)). split; [done|]. specialize (V l eq_refl). split.
    + split; try done; [simpl; by rewrite insert_length|]. intros l' Hl. unfold str. simpl.
      rewrite list_lookup_insert_ne; [done|congruence].
    + unfold ostr, str. simpl. by rewrite list_lookup_insert.
  - exists h. split; [done|]. split; [apply hd_upd_refl|]. simpl. set_solver.
Qed.
Lemma str_add_upd l s h : l < length (h_str h) -> exists h', str_add (Some l) s h = Ok (Some l, h') /\ hd_upd (Some l) h h' /\
  ostr h' (Some l) = ostr h (Some l) ∪ s.
Proof.
  intros V. unfold str_add. case_decide as Hs.
  - exists h. subst. split; [done|]. split; [apply hd_upd_refl|]. set_solver.
  - exists (set_str h l (str h l ∪ s)). split; [done|]. split.
    + split; try done; [simpl; by rewrite insert_length|]. intros l' Hl. unfold str. simpl.
      rewrite list_lookup_insert_ne; [done|congruence].
    + unfold ostr, str. simpl. by rewrite list_lookup_insert.
Qed.
Lemma hd_upd_ostr x h h' o : hd_upd x h h' -> o <> x -> ostr h' o = ostr h o.
Proof. intros U Ho. destruct o as [l|]; [|done]. simpl. apply U. congruence. Qed.

Lemma hd_except_header_spec x others : forall h, valid_str h x ->
  exists h', hd_except_header x others h = Ok (x, h') /\ hd_upd x h h' /\
    ostr h' x = ostr h x ∖ ⋃ (ostr h <$> others).
Proof.
  unfold hd_except_header. induction others as [|o others IH]; intros h V.
  - exists h. split; [done|]. split; [apply hd_upd_refl|]. simpl. set_solver.
  - cbn [forM]. destruct (str_remove_upd x (ostr h o) h V) as (h1 & E1 & U1 & S1).
    destruct (IH h1) as (h2 & E2 & U2 & S2). { intros l Hl. rewrite (hu_len _ _ _ U1). by apply V. }
    exists h2. split; [|split; [by eapply hd_upd_trans|]].
    + apply bind_ok in E2 as (u & h3 & E2 & E3). apply ret_ok in E3 as [_ <-].
      rewrite (bind_eq _ _ _ u h3); [done|]. 
      rewrite (bind_eq _ _ _ tt h1); [done|]. rewrite (bind_eq _ _ _ (ostr h o) h); [|done]. exact E1.
    + rewrite S2, S1. change (ostr h <$> o :: others) with (ostr h o :: (ostr h <$> others)).
      change (⋃ (ostr h o :: (ostr h <$> others))) with (ostr h o ∪ ⋃ (ostr h <$> others)).
      apply set_eq. intros c. rewrite !elem_of_difference, !elem_of_union, !elem_of_union_list.
      split.
      * intros [[H1 H2] H3]. split; [done|]. intros [?|(s & (o' & -> & Ho)%elem_of_list_fmap & Hc)]; [done|].
        apply H3. exists (ostr h1 o'). split; [by apply (elem_of_list_fmap_1 (ostr h1))|].
        destruct (decide (o' = x)) as [->|Hne]; [rewrite S1; set_solver|]. by rewrite (hd_upd_ostr _ _ _ _ U1 Hne).
      * intros [H1 H2]. split; [split; [done|tauto]|].
        intros (s & (o' & -> & Ho)%elem_of_list_fmap & Hc). apply H2. right. exists (ostr h o').
        split; [by apply (elem_of_list_fmap_1 (ostr h))|].
        destruct (decide (o' = x)) as [->|Hne]; [done|]. by rewrite <- (hd_upd_ostr _ _ _ _ U1 Hne).
Qed.
Lemma hd_and_loop l others : forall h, l < length (h_str h) ->
  exists h', forM others (fun o => let* s := get_ostr o in let* _ := str_add (Some l) s in ret tt) h = Ok (tt, h') /\
    hd_upd (Some l) h h' /\ ostr h' (Some l) = ostr h (Some l) ∪ ⋃ (ostr h <$> others).
Proof.
  induction others as [|o others IH]; intros h V.
  - exists h. split; [done|]. split; [apply hd_upd_refl|]. simpl. set_solver.
  - cbn [forM]. destruct (str_add_upd l (ostr h o) h V) as (h1 & E1 & U1 & S1).
    destruct (IH h1) as (h2 & E2 & U2 & S2). { rewrite (hu_len _ _ _ U1). done. }
    exists h2. split; [|split; [by eapply hd_upd_trans|]].
    + rewrite (bind_eq _ _ _ tt h1); [done|]. rewrite (bind_eq _ _ _ (ostr h o) h); [|done].
      by rewrite (bind_eq _ _ _ _ _ E1).
    + rewrite S2, S1. change (ostr h <$> o :: others) with (ostr h o :: (ostr h <$> others)).
      change (⋃ (ostr h o :: (ostr h <$> others))) with (ostr h o ∪ ⋃ (ostr h <$> others)).
      apply set_eq. intros c. rewrite !elem_of_union, !elem_of_union_list.
      split.
      * intros [?|(s & (o' & -> & Ho)%elem_of_list_fmap & Hc)]; [tauto|].
        destruct (decide (o' = Some l)) as [->|Hne]; [rewrite S1 in Hc; set_solver|].
        right; right. exists (ostr h o'). split; [by apply (elem_of_list_fmap_1 (ostr h))|].
        by rewrite <- (hd_upd_ostr _ _ _ _ U1 Hne).
      * intros [?|[?|(s & (o' & -> & Ho)%elem_of_list_fmap & Hc)]]; [tauto|tauto|]. right. exists (ostr h1 o').
        split; [by apply (elem_of_list_fmap_1 (ostr h1))|].
        destruct (decide (o' = Some l)) as [->|Hne]; [rewrite S1; set_solver|]. by rewrite (hd_upd_ostr _ _ _ _ U1 Hne).
Qed.
Lemma hd_and_some l others h : l < length (h_str h) ->
  exists h', hd_and (Some l) others h = Ok (Some l, h') /\ hd_upd (Some l) h h' /\
    ostr h' (Some l) = ostr h (Some l) ∪ ⋃ (ostr h <$> others).
Proof.
  intros V. destruct (hd_and_loop l others h V) as (h' & E & U & S). exists h'. split; [|done].
  unfold hd_and. rewrite (bind_eq _ _ _ (Some l) h); [|done]. by rewrite (bind_eq _ _ _ _ _ E).
Qed.
Lemma valid_ostr_new h s o : valid_str h o ->
  ostr (Heap (h_arr h) (h_mask h) (h_map h) (h_str h ++ [s]) (h_shr h)) o = ostr h o.
Proof. intros V. destruct o as [l|]; [|done]. unfold ostr, str. simpl. by rewrite lookup_app_l by (apply V; done). Qed.
Lemma hd_and_none others h : Forall (valid_str h) others ->
  exists x h', hd_and None others h = Ok (x, h') /\ fresh_hd h h' x (⋃ (ostr h <$> others)).
Proof.
  intros V. destruct (new_hd h ∅) as (x1 & h1 & E1 & (X1 & S1 & Y1 & A1 & M1) & -> & Hs).
  set (l := length (h_str h)) in *.
  destruct (hd_and_loop l others h1) as (h2 & E2 & U2 & S2). { rewrite Hs, app_length. simpl. lia. }
  destruct (hd_upd_ext _ _ _ _ X1 Y1 U2) as [X2 Y2].
  exists (Some l), h2. split; [|split; [done|split; [|split; [done|]]]].
  - unfold hd_and. rewrite (bind_eq _ _ _ _ _ E1). by rewrite (bind_eq _ _ _ _ _ E2).
  - rewrite S2, S1. rewrite (left_id_L ∅ (∪)). f_equal. apply list_fmap_ext. intros i o Ho.
    apply ext_ostr; [done|]. rewrite Forall_forall in V. apply V. by eapply elem_of_list_lookup_2.
  - by rewrite (hu_arr _ _ _ U2), (hu_map _ _ _ U2).
Qed.
Lemma fresh_valid h h' x s : fresh_hd h h' x s -> valid_str h' x.
Proof. intros (_ & _ & Y & _) l Hl. by destruct (Y l Hl). Qed.
Lemma young_mono h0 h1 h2 x : young_hd h0 h1 x -> ext h1 h2 -> young_hd h0 h2 x.
Proof.
  intros Y X l Hl. destruct (Y l Hl). split; [done|]. destruct X as [_ _ E3 _ _]. apply prefix_length in E3. lia.
Qed.
Lemma young_le h0 h1 h x : ext h0 h1 -> young_hd h1 h x -> young_hd h0 h x.
Proof. intros X Y l Hl. destruct (Y l Hl). split; [|done]. destruct X as [_ _ E3 _ _]. apply prefix_length in E3. lia. Qed.

Lemma all_header_spec h r : r_maps r < length (h_map h) -> exists x h', all_header r h = Ok (x, h') /\
  fresh_hd h h' x (names (mp h (r_maps r))).
Proof.
  intros Hm. unfold all_header.
  destruct (kind_header_spec h KInt r) as (i & h1 & E1 & F1). rewrite (bind_eq _ _ _ _ _ E1).
  destruct (kind_header_spec h1 KBool r) as (b & h2 & E2 & F2). rewrite (bind_eq _ _ _ _ _ E2).
  destruct (kind_header_spec h2 KObj r) as (o & h3 & E3 & F3). rewrite (bind_eq _ _ _ _ _ E3).
  destruct (kind_header_spec h3 KFloat r) as (f & h4 & E4 & F4). rewrite (bind_eq _ _ _ _ _ E4).
  pose proof (fresh_valid _ _ _ _ F1) as V1. pose proof (fresh_valid _ _ _ _ F2) as V2.
  pose proof (fresh_valid _ _ _ _ F3) as V3. pose proof (fresh_valid _ _ _ _ F4) as V4.
  destruct F1 as (X1 & S1 & Y1 & A1 & M1), F2 as (X2 & S2 & Y2 & A2 & M2),
           F3 as (X3 & S3 & Y3 & A3 & M3), F4 as (X4 & S4 & Y4 & A4 & M4).
  assert (X34 : ext h2 h4) by (by eapply ext_trans). assert (X24 : ext h1 h4) by (by eapply ext_trans).
  assert (X04 : ext h h4) by (by eapply ext_trans).
  assert (Em : forall hh, h_map hh = h_map h -> mp hh (r_maps r) = mp h (r_maps r)).
  { intros hh H. unfold mp. by rewrite H. }
  assert (Si : ostr h4 i = names_of KInt (mp h (r_maps r))) by (rewrite (ext_ostr _ _ _ X24 V1); done).
  assert (Sb : ostr h4 b = names_of KBool (mp h (r_maps r))).
  { rewrite (ext_ostr _ _ _ X34 V2), S2, Em; [done|congruence]. }
  assert (So : ostr h4 o = names_of KObj (mp h (r_maps r))).
  { rewrite (ext_ostr _ _ _ X4 V3), S3, Em; [done|congruence]. }
  assert (Sf : ostr h4 f = names_of KFloat (mp h (r_maps r))).
  { rewrite S4, Em; [done|congruence]. }
  assert (Hall : names (mp h (r_maps r)) = ostr h4 i ∪ ⋃ (ostr h4 <$> [b; o; f])).
  { change (⋃ (ostr h4 <$> [b; o; f])) with (ostr h4 b ∪ (ostr h4 o ∪ (ostr h4 f ∪ ∅))).
    rewrite Si, Sb, So, Sf. apply set_eq. intros c. rewrite !elem_of_union, elem_of_names, !elem_of_names_of.
    split.
    - intros ([] & s & Hs); eauto 10.
    - intros [[s Hs]|[[s Hs]|[[s Hs]|[[s Hs]|H]]]]; eauto. set_solver. }
  destruct i as [l|].
  - destruct (hd_and_some l [b; o; f] h4) as (h5 & E5 & U5 & S5).
    { destruct X24 as [_ _ E _ _]. apply prefix_length in E. specialize (V1 l eq_refl). lia. }
    assert (Y14 : young_hd h h4 (Some l)) by (by eapply young_mono).
    destruct (hd_upd_ext _ _ _ _ X04 Y14 U5) as [X5 Y5].
    exists (Some l), h5. split; [done|]. split; [done|]. split; [by rewrite S5, Hall|]. split; [done|].
    rewrite (hu_arr _ _ _ U5), (hu_map _ _ _ U5). split; congruence.
  - destruct (hd_and_none [b; o; f] h4) as (x & h5 & E5 & X5 & S5 & Y5 & A5 & M5).
    { constructor; [intros l Hl; by eapply (young_mono h1 h2 h4)|]. constructor; [intros l Hl; by eapply (young_mono h2 h3 h4)|].
      constructor; [done|constructor]. }
    exists x, h5. split; [done|]. split; [by eapply ext_trans|].
    split. { rewrite S5, Hall. simpl. set_solver. }
    split; [by eapply young_le|]. split; congruence.
Qed.

(** Histories of header operations: headers are named by their position in the
    list of headers obtained so far. *)
Inductive hop :=
| HColumns (names : list string)
| HKind (k : kind) (d : dframe) | HString (d : dframe) | HAll (d : dframe)
| HAnd (x : nat) (others : list nat)
| HExceptHeader (x : nat) (others : list nat)
| HExcept (x : nat) (cols : list string)
| HCopy (x : nat).
Definition hget (hs : list header) (i : nat) : header := default None (hs !! i).
Definition run_hop (hs : list header) (o : hop) : M (list header) :=
  let* x := (match o with
             | HColumns names => hd_columns names
             | HKind k d => kind_header k (d_raw d)
             | HString d => string_header (d_raw d)
             | HAll d => all_header (d_raw d)
             | HAnd x others => hd_and (hget hs x) (hget hs <$> others)
             | HExceptHeader x others => hd_except_header (hget hs x) (hget hs <$> others)
             | HExcept x cols => hd_except (hget hs x) cols
             | HCopy x => hd_copy (hget hs x)
             end) in ret (hs ++ [x]).
Fixpoint run_hops (hs : list header) (os : list hop) : M (list header) :=
  match os with [] => ret hs | o :: os => let* hs := run_hop hs o in run_hops hs os end.
Definition hop_df (o : hop) : option dframe :=
  match o with HKind _ d | HString d | HAll d => Some d | _ => None end.

Lemma run_hop_spec h0 h hs o : ext h0 h -> Forall (young_hd h0 h) hs ->
  (forall d, hop_df o = Some d -> wf h0 d) ->
  exists hs' h', run_hop hs o h = Ok (hs', h') /\ ext h0 h' /\ Forall (young_hd h0 h') hs'.
Proof.
  intros X Y Hd.
  assert (Hg : forall i, young_hd h0 h (hget hs i)).
  { intros i. unfold hget. destruct (hs !! i) as [x|] eqn:E; [|by intros l]. simpl. rewrite Forall_forall in Y.
    apply Y. by eapply elem_of_list_lookup_2. }
  assert (Hv : forall i, valid_str h (hget hs i)).
  { intros i l Hl. by destruct (Hg i l Hl). }
  assert (Hfresh : forall x h' s, fresh_hd h h' x s -> ext h0 h' /\ Forall (young_hd h0 h') (hs ++ [x])).
  { intros x h' s (X1 & _ & Y1 & _). split; [by eapply ext_trans|]. apply Forall_app. split.
    - eapply Forall_impl; [exact Y|]. intros y Hy. by eapply young_mono.
    - constructor; [|constructor]. by eapply young_le. }
  assert (Hupd : forall x h', young_hd h0 h x -> hd_upd x h h' -> ext h0 h' /\ Forall (young_hd h0 h') (hs ++ [x])).
  { intros x h' Yx U. destruct (hd_upd_ext _ _ _ _ X Yx U) as [X' Y']. split; [done|]. apply Forall_app. split.
    - eapply Forall_impl; [exact Y|]. intros y Hy l Hl. rewrite (hu_len _ _ _ U). by apply Hy.
    - by constructor. }
  unfold run_hop. destruct o as [names|k d|d|d|x others|x others|x cols|x]; simpl in Hd.
  - destruct (new_hd h (list_to_set names)) as (x & h' & E & F & _). eexists _, _.
    split; [by rewrite (bind_eq _ _ _ _ _ E)|]. by eapply Hfresh.
  - destruct (kind_header_spec h k (d_raw d)) as (x & h' & E & F). eexists _, _.
    split; [by rewrite (bind_eq _ _ _ _ _ E)|]. by eapply Hfresh.
  - assert (W : wf h d) by (eapply ext_wf; [done|by apply Hd]). destruct W as [n W].
    destruct (hd_copy_spec h (r_strs (d_raw d))) as (x & h' & E & F). { exact (wf_str _ _ _ W). }
    eexists _, _. split; [unfold string_header; by rewrite (bind_eq _ _ _ _ _ E)|]. by eapply Hfresh.
  - assert (W : wf h d) by (eapply ext_wf; [done|by apply Hd]). destruct W as [n W].
    destruct (all_header_spec h (d_raw d)) as (x & h' & E & F). { exact (wf_map _ _ _ W). }
    eexists _, _. split; [by rewrite (bind_eq _ _ _ _ _ E)|]. by eapply Hfresh.
  - destruct (hget hs x) as [l|] eqn:El.
    + destruct (hd_and_some l (hget hs <$> others) h) as (h' & E & U & _).
      { apply (Hv x). done. }
      eexists _, _. split; [by rewrite (bind_eq _ _ _ _ _ E)|]. apply Hupd; [|done]. rewrite <- El. apply Hg.
    + destruct (hd_and_none (hget hs <$> others) h) as (y & h' & E & F).
      { apply Forall_fmap, Forall_forall. intros i _. apply Hv. }
      eexists _, _. split; [by rewrite (bind_eq _ _ _ _ _ E)|]. by eapply Hfresh.
  - destruct (hd_except_header_spec (hget hs x) (hget hs <$> others) h (Hv x)) as (h' & E & U & _).
    eexists _, _. split; [by rewrite (bind_eq _ _ _ _ _ E)|]. by apply Hupd.
  - destruct (str_remove_upd (hget hs x) (list_to_set cols) h (Hv x)) as (h' & E & U & _).
    eexists _, _. split; [unfold hd_except; rewrite (bind_eq _ _ _ (hget hs x) h'); [done|]; by rewrite (bind_eq _ _ _ _ _ E)|].
    by apply Hupd.
  - destruct (hd_copy_spec h (hget hs x) (Hv x)) as (y & h' & E & F).
    eexists _, _. split; [by rewrite (bind_eq _ _ _ _ _ E)|]. by eapply Hfresh.
Qed.
Lemma run_hops_spec h0 os : forall h hs, ext h0 h -> Forall (young_hd h0 h) hs ->
  Forall (fun o => forall d, hop_df o = Some d -> wf h0 d) os ->
  exists hs' h', run_hops hs os h = Ok (hs', h') /\ ext h0 h'.
Proof.
  induction os as [|o os IH]; intros h hs X Y F.
  - eexists _, _. by split.
  - apply Forall_cons in F as [F1 F2]. destruct (run_hop_spec h0 h hs o X Y F1) as (hs1 & h1 & E1 & X1 & Y1).
    destruct (IH h1 hs1 X1 Y1 F2) as (hs2 & h2 & E2 & X2). exists hs2, h2. split; [|done].
    cbn [run_hops]. by rewrite (bind_eq _ _ _ _ _ E1).
Qed.
End frame.

(** ** GoodShortNames *)
Lemma substring_length n c : n <= String.length c -> String.length (String.substring 0 n c) = n.
Proof.
  revert n. induction c as [|a c IH]; intros [|n] H; simpl in *; try done; [lia|]. f_equal. apply IH. lia.
Qed.
Lemma substring_prefix n c : String.prefix (String.substring 0 n c) c = true.
Proof.
  revert n. induction c as [|a c IH]; intros [|n]; simpl; try done.
  destruct (Ascii.ascii_dec a a); [|done]. apply IH.
Qed.
Lemma prefix_substring s c : String.prefix s c = true -> s = String.substring 0 (String.length s) c.
Proof.
  revert c. induction s as [|a s IH]; intros [|b c] H; simpl in *; try done.
  destruct (Ascii.ascii_dec a b) as [->|]; [|done]. f_equal. auto.
Qed.
Lemma prefix_len s c : String.prefix s c = true -> String.length s <= String.length c.
Proof.
  revert c. induction s as [|a s IH]; intros [|b c] H; simpl in *; try done; [lia|].
  destruct (Ascii.ascii_dec a b) as [->|]; [|done]. specialize (IH _ H). lia.
Qed.

Lemma short_from_spec inv col n : forall len,
  (short_from inv col n len = inv /\ forall m, len <= m < len + n -> is_Some (inv !! String.substring 0 m col)) \/
  (exists m, len <= m < len + n /\ inv !! String.substring 0 m col = None /\
     (forall m', len <= m' < m -> is_Some (inv !! String.substring 0 m' col)) /\
     short_from inv col n len = <[String.substring 0 m col := col]> inv).
Proof.
  induction n as [|n IH]; intros len; cbn [short_from].
  - left. split; [done|]. lia.
  - destruct (inv !! String.substring 0 len col) as [c'|] eqn:E.
    + destruct (IH (S len)) as [[H1 H2]|(m & H1 & H2 & H3 & H4)].
      * left. split; [done|]. intros m Hm. destruct (decide (m = len)) as [->|]; [by rewrite E|]. apply H2. lia.
      * right. exists m. split; [lia|]. split; [done|]. split; [|done]. intros m' Hm.
        destruct (decide (m' = len)) as [->|]; [by rewrite E|]. apply H3. lia.
    + right. exists len. split; [lia|]. split; [done|]. split; [lia|done].
Qed.

Record short_ok (mn : nat) (seen : list string) (inv : gmap string string) : Prop := {
  so_pre : forall s c, inv !! s = Some c -> c ∈ seen /\ String.prefix s c = true /\ mn <= String.length s;
  so_uni : forall s1 s2 c, inv !! s1 = Some c -> inv !! s2 = Some c -> s1 = s2;
  so_min : forall s c n, inv !! s = Some c -> mn <= n < String.length s -> is_Some (inv !! String.substring 0 n c);
  so_all : forall c, c ∈ seen -> (forall s, inv !! s <> Some c) ->
    forall n, mn <= n <= String.length c -> is_Some (inv !! String.substring 0 n c) }.
Lemma short_ok_step mn seen inv col : short_ok mn seen inv -> col ∉ seen ->
  short_ok mn (seen ++ [col]) (short_from inv col (S (String.length col) - mn) mn).
Proof.
  intros [P U M A] Hc. destruct (short_from_spec inv col (S (String.length col) - mn) mn) as [[-> H]|(m & H1 & H2 & H3 & ->)].
  - split; try done.
    + intros s c Hs. destruct (P s c Hs) as (? & ? & ?). split; [set_solver|done].
    + intros c Hin Hn n Hm. apply elem_of_app in Hin as [?|Hin]; [by apply A|].
      apply elem_of_list_singleton in Hin as ->. apply H. lia.
  - assert (Hnew : forall s, inv !! s <> Some col). { intros s Hs. apply Hc. by destruct (P s col Hs). }
    set (s0 := String.substring 0 m col) in *.
    assert (Hl0 : String.length s0 = m) by (apply substring_length; lia).
    assert (Hmono : forall s, is_Some (inv !! s) -> is_Some (<[s0 := col]> inv !! s)).
    { intros s ?. destruct (decide (s0 = s)) as [->|]; [rewrite lookup_insert; eauto|by rewrite lookup_insert_ne]. }
    split.
    + intros s c Hs. destruct (decide (s0 = s)) as [<-|Hne].
      * rewrite lookup_insert in Hs. injection Hs as <-. split; [set_solver|]. split; [apply substring_prefix|lia].
      * rewrite lookup_insert_ne in Hs by done. destruct (P s c Hs) as (? & ? & ?). split; [set_solver|done].
    + intros s1 s2 c E1 E2.
      destruct (decide (s0 = s1)) as [<-|N1], (decide (s0 = s2)) as [<-|N2]; [done| | |].
      * rewrite lookup_insert in E1. rewrite lookup_insert_ne in E2 by done. injection E1 as <-. by apply Hnew in E2.
      * rewrite lookup_insert in E2. rewrite lookup_insert_ne in E1 by done. injection E2 as <-. by apply Hnew in E1.
      * rewrite lookup_insert_ne in E1, E2 by done. by eapply U.
    + intros s c n Hs Hn. apply Hmono. destruct (decide (s0 = s)) as [<-|Hne].
      * rewrite lookup_insert in Hs. injection Hs as <-. apply H3. lia.
      * rewrite lookup_insert_ne in Hs by done. by eapply M.
    + intros c Hin Hn n Hm. apply Hmono. apply elem_of_app in Hin as [Hin|Hin].
      * apply A; [done| |done]. intros s Hs. apply (Hn s).
        destruct (decide (s0 = s)) as [<-|]; [congruence|by rewrite lookup_insert_ne].
      * apply elem_of_list_singleton in Hin as ->. destruct (Hn s0). by rewrite lookup_insert.
Qed.
Lemma short_inv_ok mn order : NoDup order -> short_ok mn order (short_inv mn order).
Proof.
  unfold short_inv. intros Hnd. rewrite <- (app_nil_l order) at 1. 
  assert (H0 : short_ok mn [] (∅ : gmap string string)).
  { split.
    - intros s c. by rewrite lookup_empty. - intros s1 s2 c. by rewrite lookup_empty.
    - intros s c n. by rewrite lookup_empty. - intros c Hc. by apply elem_of_nil in Hc. }
  revert H0. generalize (∅ : gmap string string). revert Hnd.
  assert (G : forall order seen inv, NoDup (seen ++ order) -> short_ok mn seen inv ->
    short_ok mn (seen ++ order) (foldl (fun inv col => short_from inv col (S (String.length col) - mn) mn) inv order)).
  { clear order. induction order as [|c order IH]; intros seen inv Hnd H.
    - by rewrite app_nil_r.
    - cbn [foldl]. replace (seen ++ c :: order) with ((seen ++ [c]) ++ order) in * by (by rewrite <- app_assoc).
      apply IH; [done|]. apply short_ok_step; [done|]. apply NoDup_app in Hnd as [Hnd _].
      apply NoDup_app in Hnd as (_ & Hx & _). intros Hin. apply (Hx c Hin). set_solver. }
  intros Hnd inv H. by apply G.
Qed.

Lemma short_result_spec (l : list (string * string)) : forall m0 : gmap string string,
  NoDup (l.*2) -> forall c s,
  foldl (fun (m : gmap string string) p => <[p.2 := p.1]> m) m0 l !! c = Some s <->
  (s, c) ∈ l \/ (c ∉ l.*2 /\ m0 !! c = Some s).
Proof.
  induction l as [|[s1 c1] l IH]; intros m0 Hnd c s; cbn [foldl].
  - simpl. split; [right; split; [apply not_elem_of_nil|done]|]. intros [H|[_ H]]; [by apply elem_of_nil in H|done].
  - simpl in Hnd. apply NoDup_cons in Hnd as [Hn Hnd]. rewrite IH by done. simpl. rewrite !elem_of_cons.
    split.
    + intros [H|[H1 H2]]; [tauto|]. destruct (decide (c1 = c)) as [->|Hne].
      * rewrite lookup_insert in H2. injection H2 as ->. by left; left.
      * rewrite lookup_insert_ne in H2 by done. right. split; [|done]. intros [->|]; done.
    + intros [[H|H]|[H1 H2]].
      * injection H as -> ->. right. split; [done|]. by rewrite lookup_insert.
      * by left.
      * right. split; [tauto|]. rewrite lookup_insert_ne; [done|]. intros ->. tauto.
Qed.
Lemma good_short_lookup mn order ord c s : NoDup order -> (forall m, ord m ≡ₚ map_to_list m) ->
  short_result (ord (short_inv mn order)) !! c = Some s <-> short_inv mn order !! s = Some c.
Proof.
  intros Hnd Ho. unfold short_result. pose proof (short_inv_ok mn order Hnd) as H.
  rewrite short_result_spec.
  - rewrite (Ho _), elem_of_map_to_list, lookup_empty. split; [intros [?|[_ ?]]; done|by left].
  - rewrite (Ho _). 
    assert (G : forall l : list (string * string), NoDup l -> 
      (forall s1 s2 c, (s1, c) ∈ l -> (s2, c) ∈ l -> s1 = s2) -> NoDup (l.*2)).
    { induction l as [|[s1 c1] l IH]; intros Hl Hu; simpl; [constructor|].
      apply NoDup_cons in Hl as [Hn Hl]. constructor.
      - intros ([s2 c2] & -> & Hin)%elem_of_list_fmap. simpl in *.
        rewrite (Hu s1 s2 c2) in Hn; [done| |]; rewrite elem_of_cons; tauto.
      - apply IH; [done|]. intros a b d Ha Hb. apply (Hu a b d); rewrite elem_of_cons; tauto. }
    apply G; [apply NoDup_map_to_list|]. intros s1 s2 d. rewrite !elem_of_map_to_list. apply H.
Qed.
