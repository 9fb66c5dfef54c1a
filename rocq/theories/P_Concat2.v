(** ColumnConcatView, ColumnCopyConcat, ColumnSmartConcat. *)
From Verif Require Export P_Concat.

(** ** CheckNoColumnOverlap *)
Definition m_names (m : gmap key slice) : list string :=
  (fun p : key * slice => p.1.2) <$> map_to_list m.

Lemma no_overlap_names_spec l : forall seen,
  match no_overlap_names seen l with
  | Some seen' => NoDup l /\ (forall c, c ∈ l -> c ∉ seen) /\ seen' = seen ∪ list_to_set l
  | None => ~ (NoDup l /\ (forall c, c ∈ l -> c ∉ seen))
  end.
Proof.
  induction l as [|c l IH]; intros seen; simpl.
  - split; [constructor|]. split; [set_solver|]. set_solver.
  - case_decide as Hc.
    + intros [_ H]. apply (H c); [by left|done].
    + specialize (IH ({[c]} ∪ seen)). destruct (no_overlap_names _ l) as [s'|].
      * destruct IH as (H1 & H2 & ->). split; [|split].
        -- apply NoDup_cons. split; [|done]. intros Hin. by apply (H2 c Hin), elem_of_union; left; apply elem_of_singleton.
        -- intros x [->|Hx]%elem_of_cons; [done|]. intros Hs. apply (H2 x Hx). set_solver.
        -- set_solver.
      * intros [[Hn Hnd]%NoDup_cons H]. apply IH. split; [done|].
        intros x Hx [->%elem_of_singleton|Hs]%elem_of_union; [done|].
        apply (H x); [by right|done].
Qed.

Lemma no_overlap_spec ms : forall seen,
  no_overlap seen ms = true <->
  NoDup (concat (m_names <$> ms)) /\ (forall c, c ∈ concat (m_names <$> ms) -> c ∉ seen).
Proof.
  induction ms as [|m ms IH]; intros seen; simpl.
  - split; [|done]. intros _. split; [constructor|]. intros c Hc. by apply elem_of_nil in Hc.
  - pose proof (no_overlap_names_spec (m_names m) seen) as H. unfold m_names at 1 in H.
    destruct (no_overlap_names _ _) as [s'|].
    + destruct H as (H1 & H2 & ->). rewrite IH. unfold m_names at 4 5. fold (m_names m).
      rewrite NoDup_app. split.
      * intros [H3 H4]. split; [split; [done|split; [|done]]|].
        -- intros c Hc Hc'. apply (H4 c Hc'). set_solver.
        -- intros c [Hc|Hc]%elem_of_app; [by apply H2|]. intros Hs. apply (H4 c Hc). set_solver.
      * intros [(_ & H3 & H4) H5]. split; [done|]. intros c Hc [Hs|Hs]%elem_of_union.
        -- apply (H5 c); [|done]. apply elem_of_app. by right.
        -- apply elem_of_list_to_set in Hs. by apply (H3 c).
    + split; [done|]. intros [(H1 & _)%NoDup_app H2]. exfalso. apply H. split; [done|].
      intros c Hc. apply H2. apply elem_of_app. by left.
Qed.

Lemma elem_of_concat {A} (x : A) ls : x ∈ concat ls <-> exists l, l ∈ ls /\ x ∈ l.
Proof.
  induction ls as [|l ls IH]; simpl.
  - split; [by intros ?%elem_of_nil|]. by intros (? & ?%elem_of_nil & _).
  - rewrite elem_of_app, IH. split.
    + intros [H|(l' & H1 & H2)]; [exists l; split; [by left|done]|exists l'; split; [by right|done]].
    + intros (l' & [->|H1]%elem_of_cons & H2); eauto.
Qed.

Lemma concat_nodup_inj {A B} (f : A -> list B) (l : list A) x y b :
  NoDup (concat (f <$> l)) -> x ∈ l -> y ∈ l -> b ∈ f x -> b ∈ f y -> x = y.
Proof.
  induction l as [|a l IH]; intros Hnd Hx Hy Hbx Hby; [by apply elem_of_nil in Hx|].
  simpl in Hnd. apply NoDup_app in Hnd as (_ & Hd & Hnd).
  assert (Hc : forall z, z ∈ l -> b ∈ f z -> b ∈ concat (f <$> l)).
  { intros z Hz Hb. apply elem_of_concat. exists (f z). split; [by apply elem_of_list_fmap_1|done]. }
  apply elem_of_cons in Hx as [->|Hx]; apply elem_of_cons in Hy as [->|Hy]; auto.
  - by destruct (Hd b Hbx); eapply Hc.
  - by destruct (Hd b Hby); eapply Hc.
Qed.

(** ** unions of maps that agree *)
Definition agree_maps {V} (ms : list (gmap key V)) : Prop :=
  forall m1 m2 k v1 v2, m1 ∈ ms -> m2 ∈ ms -> m1 !! k = Some v1 -> m2 !! k = Some v2 -> v1 = v2.

Lemma union_list_lookup {V} (ms : list (gmap key V)) k v : agree_maps ms ->
  ⋃ ms !! k = Some v <-> exists m, m ∈ ms /\ m !! k = Some v.
Proof.
  induction ms as [|m ms IH]; intros Hag; simpl.
  - rewrite lookup_empty. split; [done|]. intros (m & Hm & _). by apply elem_of_nil in Hm.
  - assert (Hag' : agree_maps ms) by (intros m1 m2 k' v1 v2 H1 H2; apply Hag; by right).
    rewrite lookup_union_Some_raw, (IH Hag'). split.
    + intros [Hv|[Hn (m' & Hm' & Hv)]]; [exists m; split; [by left|done]|exists m'; split; [by right|done]].
    + intros (m' & [->|Hm']%elem_of_cons & Hv); [by left|].
      destruct (m !! k) as [w|] eqn:Hw; [|eauto].
      left. f_equal. apply (Hag m m' k w v); [by left|by right|done|done].
Qed.

Lemma foldl_union_lookup {V} (ms : list (gmap key V)) : forall m0 k v, agree_maps (m0 :: ms) ->
  foldl (fun acc m => m ∪ acc) m0 ms !! k = Some v <-> exists m, m ∈ m0 :: ms /\ m !! k = Some v.
Proof.
  induction ms as [|m ms IH]; intros m0 k v Hag; simpl.
  - split; [intros H; exists m0; split; [by left|done]|].
    intros (m & ->%elem_of_list_singleton & H). done.
  - assert (Hmem : forall m' k' v', m' ∈ (m ∪ m0) :: ms -> m' !! k' = Some v' ->
       exists m'', m'' ∈ m0 :: m :: ms /\ m'' !! k' = Some v').
    { intros m' k' v' [->|Hm']%elem_of_cons Hv'.
      - apply lookup_union_Some_raw in Hv' as [?|[_ ?]]; eexists; (split; [|eassumption]); set_solver.
      - exists m'. split; [set_solver|done]. }
    rewrite IH.
    + split; [intros (m' & Hm' & Hv'); eauto|].
      intros (m' & Hm' & Hv'). apply elem_of_cons in Hm' as [->|Hm'].
      * exists (m ∪ m0). split; [by left|]. apply lookup_union_Some_raw.
        destruct (m !! k) as [w|] eqn:Hw; [|by right]. left. f_equal.
        apply (Hag m m0 k w v); [set_solver..|done|done].
      * apply elem_of_cons in Hm' as [->|Hm'].
        -- exists (m ∪ m0). split; [by left|]. apply lookup_union_Some_raw. by left.
        -- exists m'. split; [by right|done].
    + intros m1 m2 k' v1 v2 H1 H2 E1 E2.
      destruct (Hmem _ _ _ H1 E1) as (m1' & I1 & F1), (Hmem _ _ _ H2 E2) as (m2' & I2 & F2).
      by apply (Hag m1' m2' k').
Qed.

Lemma agree_fmap {V W} (f : V -> W) (ms : list (gmap key V)) :
  agree_maps ms -> agree_maps ((fun m : gmap key V => f <$> m) <$> ms).
Proof.
  intros H m1 m2 k v1 v2 (m1' & -> & H1)%elem_of_list_fmap (m2' & -> & H2)%elem_of_list_fmap.
  rewrite !lookup_fmap. intros (w1 & E1 & ->)%fmap_Some (w2 & E2 & ->)%fmap_Some.
  f_equal. eauto.
Qed.

Lemma agree_names ms : NoDup (concat (m_names <$> ms)) -> agree_maps ms.
Proof.
  intros Hnd m1 m2 k v1 v2 H1 H2 E1 E2.
  assert (m1 = m2); [|congruence].
  apply (concat_nodup_inj m_names ms m1 m2 k.2); [done..| |];
    apply elem_of_list_fmap; [exists (k, v1)|exists (k, v2)]; (split; [done|by apply elem_of_map_to_list]).
Qed.

Section frame.
Context {rt : GoRT}.

Lemma m_names_t_names h d : m_names (mp h (r_maps (d_raw d))) ≡ₚ t_names (abs h d).
Proof.
  unfold m_names, t_names.
  change (t_cols (abs h d)) with ((fun s => pick (inds d) (sl_vals h s)) <$> mp h (r_maps (d_raw d))).
  rewrite dom_fmap_L.
  assert (E : (fun p : key * slice => p.1.2) <$> map_to_list (mp h (r_maps (d_raw d))) =
     (fun k : key => k.2) <$> (fst <$> map_to_list (mp h (r_maps (d_raw d))))) by by rewrite <- list_fmap_compose.
  rewrite E. apply fmap_Permutation. apply NoDup_Permutation.
  - apply NoDup_fst_map_to_list.
  - apply NoDup_elements.
  - intros k. rewrite elem_of_elements, elem_of_dom, elem_of_list_fmap. split.
    + intros ([k' s] & -> & Hs%elem_of_map_to_list). eauto.
    + intros [s Hs]. exists (k, s). split; [done|]. by apply elem_of_map_to_list.
Qed.

Lemma names_concat h dfs :
  concat (m_names <$> ((fun d => mp h (r_maps (d_raw d))) <$> dfs)) ≡ₚ concat (t_names <$> (abs h <$> dfs)).
Proof.
  induction dfs as [|d dfs IH]; [done|].
  change (m_names (mp h (r_maps (d_raw d))) ++ concat (m_names <$> ((fun d => mp h (r_maps (d_raw d))) <$> dfs))
    ≡ₚ t_names (abs h d) ++ concat (t_names <$> (abs h <$> dfs))).
  by rewrite IH, m_names_t_names.
Qed.

(** ** the string header of a shallow copy *)
Lemma shallow_copy_strs h d v h' : wf h d -> shallow_copy d h = Ok (v, h') ->
  h_mask h' = h_mask h /\
  match r_strs (d_raw v) with
  | None => t_strs (abs h d) = ∅
  | Some x => t_strs (abs h d) <> ∅ /\ length (h_str h) <= x
  end.
Proof.
  intros [n W] E. unfold shallow_copy in E.
  apply bind_ok in E as (e & h1 & E1 & E).
  assert (E1' : empty_df (-1) (r_cpu (d_raw d)) h =
    Ok (DF (Raw (length (h_map h)) None false None (r_cpu (d_raw d)) None) (mk_ind []) nil_slice false false,
        Heap (h_arr h) (h_mask h) (h_map h ++ [∅]) (h_str h) (h_shr h))) by done.
  rewrite E1' in E1. injection E1 as <- <-.
  apply bind_ok in E as (r & h2 & E2 & E). injection E as <- <-. simpl.
  unfold transfer_raw, own_maps in E2. cbn [r_sharedMaps d_raw] in E2.
  apply bind_ok in E2 as (r0 & h3 & E0 & E2). injection E0 as <- <-.
  unfold transfer_loops in E2.
  unfold bind at 1, get_mp at 1 in E2. unfold bind at 1, get_mp at 1 in E2.
  unfold bind at 1, put_mp at 1 in E2.
  apply bind_ok in E2 as (sh & h4 & Es & E2).
  unfold bind at 1, get_ostr in E2.
  apply bind_ok in E2 as (st & h5 & Et & E2). injection E2 as <- <-. simpl.
  match type of Es with shr_add ?o ?xs ?hh = _ => destruct (shr_add_spec o xs hh) as (o' & h'' & Es' & O & _) end.
  rewrite Es in Es'. injection Es' as <- <-.
  assert (Ho : ostr h4 (r_strs (d_raw d)) = t_strs (abs h d)).
  { unfold abs. simpl. unfold ostr, str. by rewrite (os_str _ _ O). }
  rewrite Ho in Et. unfold str_add in Et. cbn [r_strs d_raw] in Et.
  destruct (decide (t_strs (abs h d) = ∅)) as [Hd|Hd].
  - injection Et as <- <-. split; [by rewrite (os_mask _ _ O)|done].
  - unfold bind, new_str, ret in Et. injection Et as <- <-. simpl. split; [by rewrite (os_mask _ _ O)|].
    split; [done|]. rewrite (os_str _ _ O). done.
Qed.

Lemma prefix_of_str h0 h : length (h_str h0) <= length (h_str h) ->
  (forall i, i < length (h_str h0) -> str h i = str h0 i) -> h_str h0 `prefix_of` h_str h.
Proof.
  intros Hl H. exists (drop (length (h_str h0)) (h_str h)).
  rewrite <- (take_drop (length (h_str h0)) (h_str h)) at 1. f_equal.
  apply list_eq. intros i. destruct (decide (i < length (h_str h0))) as [Hi|Hi].
  - rewrite lookup_take by done. specialize (H i Hi). unfold str in H.
    destruct (lookup_lt_is_Some_2 (h_str h) i) as [x Ex]; [lia|].
    destruct (lookup_lt_is_Some_2 (h_str h0) i) as [y Ey]; [lia|].
    rewrite Ex, Ey in *. simpl in H. by subst.
  - rewrite lookup_take_ge by lia. symmetry. apply lookup_ge_None_2. lia.
Qed.

(** ** the loop *)
Lemma concat_view_loop_spec h0 dfs : forall r h,
  Forall (wf h0) dfs -> ext h0 h -> h_arr h = h_arr h0 -> h_mask h = h_mask h0 ->
  length (h_map h0) <= r_maps r < length (h_map h) ->
  valid_shr h (r_shared r) -> valid_str h (r_strs r) ->
  (forall x, r_strs r = Some x -> length (h_str h0) <= x) ->
  exists r' h', concat_view_loop r dfs h = Ok (r', h') /\ ext h0 h' /\ h_arr h' = h_arr h0 /\
    h_mask h' = h_mask h0 /\ length (h_map h') = length (h_map h) /\
    r_maps r' = r_maps r /\ r_strs r' = r_strs r /\ r_sharedMaps r' = r_sharedMaps r /\
    r_enc r' = r_enc r /\ r_cpu r' = r_cpu r /\ valid_shr h' (r_shared r') /\ valid_str h' (r_strs r) /\
    mp h' (r_maps r) = foldl (fun acc m => m ∪ acc) (mp h (r_maps r)) ((fun d => mp h0 (r_maps (d_raw d))) <$> dfs) /\
    ostr h' (r_strs r) = (match r_strs r with None => ∅ | Some _ => ostr h (r_strs r) ∪ ⋃ (t_strs <$> (abs h0 <$> dfs)) end) /\
    oshr h (r_shared r) ⊆ oshr h' (r_shared r').
Proof.
  induction dfs as [|d dfs IH]; intros r h HW X Ea Em Hl Hsh Hst Hnew.
  - exists r, h. split; [done|]. do 4 (split; [done|]). do 5 (split; [done|]).
    split; [done|]. split; [done|]. split; [done|]. split; [|done].
    destruct (r_strs r); [set_solver|done].
  - apply Forall_cons in HW as [[n W0] HW]. cbn [concat_view_loop].
    unfold bind at 1, get_mp at 1. unfold bind at 1, get_mp at 1. unfold bind at 1, put_mp at 1.
    rewrite (ext_mp _ _ _ X) by apply W0.
    set (m := mp h0 (r_maps (d_raw d))). set (h1 := set_mp h (r_maps r) (m ∪ mp h (r_maps r))).
    destruct (shr_add_spec (r_shared r) (names m) h1) as (sh & h2 & E2 & O2 & V2 & _).
    destruct V2 as [V2 S2]; [done|].
    rewrite (bind_eq _ _ _ _ _ E2). unfold bind at 1, get_ostr.
    assert (Hx2 : ext h0 h2).
    { destruct X as [Y1 Y2 Y3 Y4 Y5].
      destruct O2 as [O2a O2m O2p O2s O2r]. split.
      - rewrite O2a. done.
      - rewrite O2p. unfold h1. simpl. destruct Y2 as [tl ->].
        exists (<[r_maps r - length (h_map h0) := m ∪ mp h (r_maps r)]> tl).
        rewrite insert_app_r_alt by lia. done.
      - rewrite O2s. done.
      - etrans; [exact Y4|]. exact O2r.
      - intros l. unfold marr. rewrite O2m. apply Y5. }
    assert (Hs2 : ostr h2 (r_strs (d_raw d)) = t_strs (abs h0 d)) by (apply ext_ostr; [done|apply W0]).
    rewrite Hs2.
    set (xs := t_strs (abs h0 d)).
    assert (exists h3, (match r_strs r with
       | Some _ => let* _ := str_add (r_strs r) xs in ret tt
       | None => ret tt end) h2 = Ok (tt, h3) /\ only_str h2 h3 /\ valid_str h3 (r_strs r) /\
       ostr h3 (r_strs r) = (match r_strs r with None => ∅ | Some _ => ostr h2 (r_strs r) ∪ xs end) /\
       (forall x, x < length (h_str h2) -> r_strs r <> Some x -> str h3 x = str h2 x)) as
       (h3 & E3 & O3 & V3 & S3 & K3).
    { assert (Hv2 : valid_str h2 (r_strs r)) by (intros x Hx; rewrite (os_str _ _ O2); by apply Hst).
      destruct (and_step (r_strs r) xs h2 Hv2) as (st' & h3 & E3 & O3 & V3 & S3 & N3 & K3).
      destruct (r_strs r) as [x|] eqn:Er.
      - assert (st' = Some x) as ->.
        { unfold str_add in E3. destruct (decide (xs = ∅)); by injection E3 as <- _. }
        exists h3. unfold bind. rewrite E3. done.
      - exists h2. split; [done|]. split; [by split|]. done. }
    rewrite (bind_eq _ _ _ _ _ E3).
    set (r1 := Raw (r_maps r) sh (r_sharedMaps r) (r_enc r) (r_cpu r) (r_strs r)).
    assert (X3 : ext h0 h3).
    { destruct Hx2 as [Y1 Y2 Y3 Y4 Y5]. destruct O3 as [P1 P2 P3 P4 P5].
      split; rewrite ?P1, ?P3, ?P4; try done.
      - apply prefix_of_str; [apply prefix_length in Y3; lia|]. intros i Hi.
        rewrite K3.
        + destruct Y3 as [tl Y3]. unfold str. rewrite Y3. by rewrite lookup_app_l.
        + destruct Y3 as [tl Y3]. rewrite Y3, app_length. lia.
        + intros Hx. apply Hnew in Hx. lia.
      - intros l. unfold marr. rewrite P2. apply Y5. }
    assert (Hm3 : h_map h3 = h_map h1) by (by rewrite (ot_map _ _ O3), (os_map _ _ O2)).
    destruct (IH r1 h3 HW X3) as (r' & h' & E & X' & R1 & R2 & R3 & R4 & R5 & R6 & R7 & R8 & R9 & R10 & R11 & R12 & R13).
    + by rewrite (ot_arr _ _ O3), (os_arr _ _ O2).
    + by rewrite (ot_mask _ _ O3), (os_mask _ _ O2).
    + rewrite Hm3. unfold h1. simpl. by rewrite insert_length.
    + intros x Hx. rewrite (ot_shr _ _ O3). by apply V2.
    + done.
    + done.
    + exists r', h'. split; [done|]. split; [done|]. split; [done|]. split; [done|].
      split; [rewrite R3, Hm3; unfold h1; simpl; by rewrite insert_length|].
      do 7 (split; [done|]). split; [|split].
      * change (r_maps r) with (r_maps r1) at 1. rewrite R11. simpl. f_equal. unfold mp. rewrite Hm3. unfold h1. simpl.
        rewrite list_lookup_insert by lia. done.
      * change (r_strs r) with (r_strs r1) at 1. rewrite R12. unfold r1. simpl. destruct (r_strs r) as [x|] eqn:Er; [|done].
        change (t_strs <$> (abs h0 <$> d :: dfs)) with (xs :: (t_strs <$> (abs h0 <$> dfs))).
        rewrite S3. simpl. assert (str h2 x = str h x) as ->. { unfold str. by rewrite (os_str _ _ O2). }
        set_solver.
      * etrans; [|exact R13]. unfold r1. simpl. unfold oshr at 2, shrd. rewrite (ot_shr _ _ O3).
        fold (shrd h2). change (oshr h (r_shared r) ⊆ oshr h2 sh). rewrite S2. 
        assert (oshr h1 (r_shared r) = oshr h (r_shared r)) as -> by done. set_solver.
Qed.

Lemma column_concat_view_spec h d0 rest : Forall (wf h) (d0 :: rest) ->
  exists o h', column_concat_view (d0 :: rest) h = Ok (o, h') /\ ext h h' /\ h_arr h' = h_arr h /\
    let ts := abs h <$> d0 :: rest in
    match o with
    | None => h' = h /\ (~ NoDup (concat (t_names <$> ts)) \/
        existsb d_viewed (d0 :: rest) = true /\
        Exists (fun d => hash_int_slice (inds d) <> hash_int_slice (inds d0)) rest)
    | Some v => NoDup (concat (t_names <$> ts)) /\
        (existsb d_viewed (d0 :: rest) = true ->
         Forall (fun d => hash_int_slice (inds d) = hash_int_slice (inds d0)) rest) /\
        d_ind v = d_ind d0 /\ d_viewed v = d_viewed d0 /\ r_maps (d_raw v) = length (h_map h) /\
        r_sharedMaps (d_raw v) = false /\
        (forall x, r_strs (d_raw v) = Some x -> length (h_str h) <= x) /\
        (forall k s, mp h' (r_maps (d_raw v)) !! k = Some s <->
           exists d, d ∈ d0 :: rest /\ mp h (r_maps (d_raw d)) !! k = Some s) /\
        t_strs (abs h' v) = (if decide (t_strs (abs h d0) = ∅) then ∅ else ⋃ (t_strs <$> ts)) /\
        r_enc (d_raw v) = None /\ r_cpu (d_raw v) = r_cpu (d_raw d0) /\
        (forall n, Forall (fun d => wfn h d n) (d0 :: rest) -> wfn h' v n) /\
        (Forall (fun d => inds d = inds d0) rest -> abs h' v = t_beside (abs h d0) ts
           (if decide (t_strs (abs h d0) = ∅) then ∅ else ⋃ (t_strs <$> ts)))
    end.
Proof.
  intros HW. unfold column_concat_view. cbv zeta.
  set (dfs := d0 :: rest) in *. set (ms := (fun d => mp h (r_maps (d_raw d))) <$> dfs).
  rewrite (bind_eq _ _ h ms h) by done.
  assert (Hno : no_overlap ∅ ms = true <-> NoDup (concat (t_names <$> (abs h <$> dfs)))).
  { rewrite no_overlap_spec. unfold ms. rewrite names_concat. split; [by intros [? _]|].
    intros Hnd. split; [done|]. set_solver. }
  destruct (no_overlap ∅ ms) eqn:Eno.
  2:{ exists None, h. split; [done|]. split; [done|]. split; [done|]. split; [done|]. left. rewrite <- Hno. done. }
  assert (Hnd : NoDup (concat (t_names <$> (abs h <$> dfs)))) by (by apply Hno).
  assert (Hag : agree_maps ms).
  { apply agree_names. unfold ms. by rewrite names_concat. }
  match goal with |- context [if negb true then ?a else ?b] => change (if negb true then a else b) with b end.
  unfold dfs at 1.
  assert (Hfa : forallb (fun d => bool_decide (hash_int_slice (inds d) = hash_int_slice (inds d0))) rest = true
     <-> Forall (fun d => hash_int_slice (inds d) = hash_int_slice (inds d0)) rest).
  { clear. induction rest as [|d l IH]; simpl; [by split|].
    rewrite andb_true_iff, IH, bool_decide_eq_true, Forall_cons. done. }
  destruct (existsb d_viewed dfs && negb (forallb (fun d => bool_decide (hash_int_slice (inds d) =
                                                      hash_int_slice (inds d0))) rest)) eqn:Ev.
  { fold dfs; rewrite Ev. exists None, h. split; [done|]. split; [done|]. split; [done|]. split; [done|]. right.
    apply andb_true_iff in Ev as [Ev1 Ev2]. split; [done|]. apply negb_true_iff in Ev2.
    apply not_Forall_Exists; [intros d; apply _|]. rewrite <- Hfa. by rewrite Ev2. }
  fold dfs; rewrite Ev.
  assert (Hw0 : wf h d0) by (by apply Forall_cons in HW as [? _]).
  assert (HWr : Forall (wf h) rest) by (by apply Forall_cons in HW as [_ ?]).
  destruct (shallow_copy_spec h d0 Hw0) as (v & h1 & E1 & X1 & A1 & W1 & B1 & B2 & B3 & B4 & B5 & B6 & B7 & B8).
  destruct (shallow_copy_strs h d0 v h1 Hw0 E1) as [Hmask Hstrs].
  rewrite (bind_eq _ _ _ _ _ E1).
  pose proof W1 as [n1 W1n].
  destruct (concat_view_loop_spec h rest (d_raw v) h1 HWr X1 A1 Hmask) as
    (r & h' & E & X & C1 & C2 & C3 & C4 & C5 & C6 & C7 & C8 & C9 & C10 & C11 & C12 & C13).
  { lia. } { intros x Hx. by apply (wf_shr _ _ _ W1n). } { intros x Hx. by apply (wf_str _ _ _ W1n). }
  { intros x Hx. rewrite Hx in Hstrs. by destruct Hstrs. }
  rewrite (bind_eq _ _ _ _ _ E). exists (Some (set_raw v r)), h'. split; [done|]. split; [done|]. split; [done|].
  assert (Hms : ms = mp h (r_maps (d_raw d0)) :: ((fun d => mp h (r_maps (d_raw d))) <$> rest)) by done.
  assert (Hlk : forall k s, mp h' (r_maps (d_raw v)) !! k = Some s <->
           exists d, d ∈ d0 :: rest /\ mp h (r_maps (d_raw d)) !! k = Some s).
  { intros k s. rewrite C11, B4, foldl_union_lookup by (by rewrite <- Hms). rewrite <- Hms. unfold ms.
    split.
    - intros (m & (d & -> & Hd)%elem_of_list_fmap & Hm). eauto.
    - intros (d & Hd & Hm). eexists. split; [apply elem_of_list_fmap; exists d; eauto|done]. }
  assert (Hst : ostr h' (r_strs (d_raw v)) = (if decide (t_strs (abs h d0) = ∅) then ∅ else ⋃ (t_strs <$> (abs h <$> dfs)))).
  { rewrite C12. destruct (r_strs (d_raw v)) as [x|] eqn:Ex.
    - destruct Hstrs as [Hs _]. rewrite decide_False by done.
      change (t_strs <$> (abs h <$> dfs)) with (t_strs (abs h d0) :: (t_strs <$> (abs h <$> rest))).
      simpl. f_equal. pose proof (f_equal t_strs B1) as B1s. unfold abs at 1 in B1s. simpl in B1s.
      rewrite Ex in B1s. exact B1s.
    - rewrite decide_True by done. done. }
  assert (He1 : r_enc (d_raw v) = None) by (apply (f_equal t_enc) in B1; exact B1).
  assert (Hc1 : r_cpu (d_raw v) = r_cpu (d_raw d0)) by (apply (f_equal t_cpu) in B1; exact B1).
  split; [done|].
  split. { intros Hx. rewrite Hx in Ev. simpl in Ev. apply Hfa. by apply negb_false_iff in Ev. }
  cbn [set_raw d_raw d_ind d_viewed]. split; [done|]. split; [done|]. split; [by rewrite C4|]. split; [by rewrite C6|].
  split. { intros x Hx. rewrite C5 in Hx. rewrite Hx in Hstrs. by destruct Hstrs. }
  split. { by rewrite C4. }
  split. { unfold abs at 1. simpl. by rewrite C5. }
  split; [by rewrite C7|]. split; [by rewrite C8|].
  split.
  { intros n Hn. destruct (Forall_cons_1 _ _ _ Hn) as [Hn0 _]. split; simpl; rewrite ?C4, ?C5; try done.
    - lia.
    - intros k s (d & Hd & Hs)%Hlk. rewrite Forall_forall in Hn. 
      destruct (wfn_col _ _ _ _ _ (Hn d Hd) Hs) as (Hc & Hl & _).
      split; [|done]. unfold col_ok, arr. rewrite C1. exact Hc.
    - rewrite B7. apply Hn0.
    - unfold inds. simpl. rewrite B7. apply Hn0.
    - rewrite B8. unfold inds, num_rows. simpl. rewrite B7. apply Hn0.
    - destruct (wf_mask _ _ _ W1n) as [Q1 Q2]. split; [done|].
      unfold marr. rewrite C2, <- Hmask. exact Q2.
    - apply W1n. }
  intros Hi. unfold t_beside, abs at 1. cbn [set_raw d_raw d_ind]. rewrite C4, C5, C7, C8, Hst, He1, Hc1.
  f_equal.
  - unfold num_rows. simpl. by rewrite B7.
  - apply map_eq. intros k. apply option_eq. intros col.
    assert (Hag2 : agree_maps (t_cols <$> (abs h <$> dfs))).
    { intros m1 m2 k' v1 v2 (t1 & -> & (d1 & -> & H1)%elem_of_list_fmap)%elem_of_list_fmap
        (t2 & -> & (d2 & -> & H2)%elem_of_list_fmap)%elem_of_list_fmap.
      rewrite !abs_cols_lookup. intros (s1 & E1' & ->)%fmap_Some (s2 & E2' & ->)%fmap_Some.
      assert (s1 = s2) as ->. { apply (Hag (mp h (r_maps (d_raw d1))) (mp h (r_maps (d_raw d2))) k' s1 s2); [..|done|done];
        unfold ms; by apply (elem_of_list_fmap_1 (fun d => mp h (r_maps (d_raw d)))). }
      assert (Hd : forall d, d ∈ dfs -> inds d = inds d0).
      { intros d [->|Hd]%elem_of_cons; [done|]. rewrite Forall_forall in Hi. by apply Hi. }
      by rewrite (Hd d1 H1), (Hd d2 H2). }
    rewrite (union_list_lookup _ k col Hag2). rewrite lookup_fmap, fmap_Some.
    assert (Hin0 : inds (set_raw v r) = inds d0) by (unfold inds; simpl; by rewrite B7).
    assert (Hsl : forall s, sl_vals h' s = sl_vals h s) by (intros s; unfold sl_vals, arr; by rewrite C1).
    rewrite Hin0. split.
    + intros (s & Hs & ->). apply Hlk in Hs as (d & Hd & Hs).
      exists (t_cols (abs h d)). split.
      * apply (elem_of_list_fmap_1 t_cols). by apply (elem_of_list_fmap_1 (abs h)).
      * rewrite abs_cols_lookup, Hs. simpl. rewrite Hsl. f_equal. f_equal.
        apply elem_of_cons in Hd as [->|Hd]; [done|]. rewrite Forall_forall in Hi. by apply Hi.
    + intros (m & (t & -> & (d & -> & Hd)%elem_of_list_fmap)%elem_of_list_fmap & Hk).
      rewrite abs_cols_lookup in Hk. apply fmap_Some in Hk as (s & Hs & ->).
      exists s. split; [apply Hlk; eauto|]. rewrite Hsl. f_equal.
      apply elem_of_cons in Hd as [->|Hd]; [done|]. rewrite Forall_forall in Hi. by apply Hi.
Qed.
End frame.
