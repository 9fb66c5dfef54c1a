(** One-hot encoding: TransformView. *)
From Verif Require Export P_OneHot2.

(** ** The workers *)
Lemma mem_set_cell h a v b : is_Some (cell_val h a) -> cell_val (mem_set h a v) b = if decide (b = a) then Some v else cell_val h b.
Proof.
  intros [v0 H]. unfold cell_val in H. apply upd_cell_val.
  - destruct (decide (a.1 < length (h_arr h))) as [|Hge]; [done|]. rewrite arr_ge in H by lia. done.
  - by eapply lookup_lt_Some.
Qed.
Lemma wrt_mem_set h a v v0 : cell_val h a = Some v0 -> kind_of v = kind_of v0 -> wrt h (mem_set h a v).
Proof.
  intros H Hk. unfold cell_val in H. split; try done; [simpl; by rewrite insert_length|].
  intros b. unfold mem_set, set_arr, arr. simpl. destruct (decide (b = a.1)) as [->|Hne]; [|by rewrite list_lookup_insert_ne].
  destruct (decide (a.1 < length (h_arr h))) as [Hl|Hl]; [|by rewrite list_insert_ge by lia].
  rewrite list_lookup_insert by done. simpl. rewrite list_fmap_insert, Hk. apply list_insert_id. rewrite list_lookup_fmap. unfold arr in H. by rewrite H.
Qed.

Definition target (e : encoder) (m : gmap key slice) (c : string) (g : nat -> Z) (ix : list nat) (a : addr) : Prop :=
  exists i n t, i ∈ ix /\ flag_for e c (g i) = Some n /\ m !! (KBool, n) = Some t /\ a = (s_arr t, s_off t + i).
Lemma flag_loop_run e m c s (g : nat -> Z) : forall ix h,
  (forall i, i ∈ ix -> i < s_len s /\ exists v, cell_val h (s_arr s, s_off s + i) = Some v /\ int_of v = g i) ->
  (forall z n, flag_for e c z = Some n -> exists t, m !! (KBool, n) = Some t /\ forall i, i ∈ ix -> s_arr t <> s_arr s /\ i < s_len t /\
     exists v, cell_val h (s_arr t, s_off t + i) = Some v /\ kind_of v = KBool) ->
  exists b h', run_job (flag_loop e m c s ix) h = Some (b, h') /\ wrt h h' /\
    (b = true <-> exists i, i ∈ ix /\ flag_for e c (g i) = None) /\
    (forall a, cell_val h' a = cell_val h a \/ target e m c g ix a /\ cell_val h' a = Some (VBool true)) /\
    (b = false -> forall a, target e m c g ix a -> cell_val h' a = Some (VBool true)).
Proof.
  induction ix as [|i ix IH]; intros h Hi Hf.
  - exists false, h. split; [done|]. split; [done|]. split; [split; [done|]; intros (i & Hx & _); by apply elem_of_nil in Hx|].
    split; [by left|]. intros _ a (i & n & t & Hx & _). by apply elem_of_nil in Hx.
  - cbn [flag_loop]. destruct (Hi i) as (Hl & v & Hv & Eg); [by apply elem_of_cons; left|].
    rewrite decide_True by done. cbn [run_job]. change mem_get with cell_val. rewrite Hv. rewrite Eg.
    destruct (flag_for e c (g i)) as [n|] eqn:En.
    + destruct (Hf _ _ En) as (t & Ht & Hft). rewrite Ht. destruct (Hft i) as (Hne & Hlt & v0 & Hv0 & Hk); [by apply elem_of_cons; left|].
      rewrite decide_True by done. cbn [run_job]. change mem_get with cell_val. rewrite Hv0.
      set (h1 := mem_set h (s_arr t, s_off t + i) (VBool true)).
      assert (Hc : forall b, cell_val h1 b = if decide (b = (s_arr t, s_off t + i)) then Some (VBool true) else cell_val h b) by (intros b; apply mem_set_cell; by eexists).
      assert (Hw : wrt h h1) by (by eapply wrt_mem_set).
      destruct (IH h1) as (b & h2 & E & W & Hb & Hfr & Hall).
      * intros i' Hi'. destruct (Hi i') as (? & v' & Hv' & ?); [by apply elem_of_cons; right|]. split; [done|]. exists v'. rewrite Hc, decide_False; [done|]. intros [= E _]. done.
      * intros z n' Hz. destruct (Hf z n' Hz) as (t' & Ht' & Hft'). exists t'. split; [done|]. intros i' Hi'.
        destruct (Hft' i') as (? & ? & v' & Hv' & Hk'); [by apply elem_of_cons; right|]. split; [done|]. split; [done|]. rewrite Hc. case_decide; eauto.
      * exists b, h2. split; [done|]. split; [by etrans|]. split.
        { rewrite Hb. split; intros (i' & Hi' & Hn).
          - exists i'. split; [by apply elem_of_cons; right|done].
          - apply elem_of_cons in Hi' as [->|Hi']; [congruence|]. by exists i'. }
        split.
        { intros a. destruct (Hfr a) as [Ea|(Ht1 & Ea)].
          - rewrite Ea, Hc. case_decide as Ed; [|by left]. right. split; [|done]. exists i, n, t. split; [by apply elem_of_cons; left|done].
          - right. split; [|done]. destruct Ht1 as (i' & n' & t' & H1 & H2). exists i', n', t'. split; [by apply elem_of_cons; right|done]. }
        { intros E0 a Ha. destruct (Hfr a) as [Ea|(Ht1 & Ea)]; [|done]. rewrite Ea, Hc. case_decide as Ed; [done|].
          destruct Ha as (i' & n' & t' & H1 & H2 & H3 & H4). apply elem_of_cons in H1 as [->|H1].
          - exfalso. apply Ed. rewrite En in H2. injection H2 as <-. rewrite Ht in H3. injection H3 as <-. done.
          - rewrite <- Hc in Ed || idtac. rewrite <- (Hall E0 a); [|by exists i', n', t']. rewrite Ea, Hc. by rewrite decide_False. }
    + exists true, h. split; [done|]. split; [done|]. split; [split; [|done]; intros _; exists i; split; [by apply elem_of_cons; left|done]|].
      split; [by left|done].
Qed.

(** ** Allocation *)
Section alloc.
Context {rt : GoRT}.
Lemma alloc_distinct k r cols h r' h' : r_maps r < length (h_map h) -> valid_shr h (r_shared r) -> alloc_cols k r cols h = Ok (r', h') ->
  forall c1 c2 s1 s2, c1 ∈ cols -> c2 ∈ cols -> c1 <> c2 -> mp h' (r_maps r') !! (k, c1) = Some s1 -> mp h' (r_maps r') !! (k, c2) = Some s2 -> s_arr s1 <> s_arr s2.
Proof.
  intros Hr Hv E c1 c2 s1 s2 H1 H2 Hne L1 L2. unfold alloc_cols in E.
  assert (Eb : bool_decide (cols = []) = false) by (apply bool_decide_eq_false; intros ->; by apply elem_of_nil in H1). rewrite Eb in E.
  destruct (own_maps_spec r h Hr Hv) as (r1 & h1 & E1 & A1 & A2 & A3 & A4 & A5 & _).
  rewrite (bind_eq _ _ _ _ _ E1) in E. rewrite (bind_eq _ _ h1 (mp h1 (r_maps r1)) h1) in E by done. cbv zeta in E.
  set (n := num_alloc_rows (mp h1 (r_maps r1))) in E.
  destruct (fill_spec (r_maps r1) (fun c => (k, c)) (fun _ => ret (replicate n (zero_of k)))
     (fun _ => replicate n (zero_of k)) cols h1) as (h2 & E2 & G2 & O2 & F2 & D2); [done|done|done|].
  assert (E2' : forM cols (fun c => let* s := make_slice k n in put_col (r_maps r1) (k, c) s) h1 = Ok (tt, h2)).
  { rewrite <- E2. apply forM_ext. intros c hh. by rewrite make_slice_lit. }
  rewrite (bind_eq _ _ _ _ _ E2') in E. unfold ret in E. assert (r1 = r' /\ h2 = h') as [-> ->] by (split; congruence).
  eapply D2; [| | |exact L1|exact L2].
  - apply elem_of_list_fmap. by exists c1.
  - apply elem_of_list_fmap. by exists c2.
  - congruence.
Qed.

(** ** Drop *)
Lemma str_remove_same o xs h : valid_str h o -> ostr h o ## xs -> str_remove o xs h = Ok (tt, h).
Proof.
  intros Hv Hd. destruct o as [l|]; [|done]. unfold str_remove. simpl in *. unfold set_str. do 2 f_equal.
  assert (E : str h l ∖ xs = str h l) by set_solver. rewrite E. destruct h as [ha hm hp hs hr]. simpl in *. f_equal.
  apply list_insert_id. unfold str. simpl. destruct (hs !! l) eqn:El; [done|]. apply lookup_ge_None in El. specialize (Hv l eq_refl). simpl in Hv. lia.
Qed.
Lemma drop_ext h0 r cols : forall h, ext h0 h -> length (h_map h0) <= r_maps r -> r_maps r < length (h_map h) -> valid_str h (r_strs r) ->
  (forall c, c ∈ cols -> c ∉ ostr h (r_strs r)) -> exists h', drop_cols r cols h = Ok (tt, h') /\ ext h0 h'.
Proof.
  change (drop_cols r) with (fun cols => forM cols (drop1 r)). cbv beta.
  induction cols as [|c cols IH]; intros h X L1 L2 V Hd; [by exists h|]. cbn [forM].
  assert (E : exists h1, drop1 r c h = Ok (tt, h1) /\ chg (r_maps r) h h1 /\ h_str h1 = h_str h /\ length (h_map h1) = length (h_map h)).
  { unfold drop1. destruct (shr_remove_spec (r_shared r) {[c]} h) as (h1 & E1 & O1 & _). rewrite (bind_eq _ _ _ _ _ E1).
    assert (E2 : str_remove (r_strs r) {[c]} h1 = Ok (tt, h1)).
    { apply str_remove_same.
      - intros l Hl. rewrite (os_str _ _ O1). by apply V.
      - unfold ostr, str. rewrite (os_str _ _ O1). specialize (Hd c ltac:(by apply elem_of_cons; left)). unfold ostr, str in Hd. set_solver. }
    rewrite (bind_eq _ _ _ _ _ E2). rewrite (bind_eq _ _ h1 (mp h1 (r_maps r)) h1) by done. eexists. split; [reflexivity|]. split.
    - eapply chg_trans; [by apply only_shr_chg|]. apply set_mp_chg. by rewrite (os_map _ _ O1).
    - split; [simpl; apply (os_str _ _ O1)|]. simpl. rewrite insert_length. by rewrite (os_map _ _ O1). }
  destruct E as (h1 & E1 & C & S & L). rewrite (bind_eq _ _ _ _ _ E1). apply IH.
  - eapply chg_ext; [done|exact C|by rewrite S|done].
  - done.
  - by rewrite L.
  - intros l Hl. rewrite S. by apply V.
  - intros c' Hc'. specialize (Hd c' ltac:(by apply elem_of_cons; right)). unfold ostr, str in *. by rewrite S.
Qed.
End alloc.

(** ** Fitted encoders *)
Section fitted.
Context (opt : oh_opt) (F : fixed opt) (t0 : table) (e : encoder) (H : fitted opt t0 e).
Lemma created_form c n : c ∈ en_cats e -> created e c n -> (exists i, n = onehot_name c i) \/ n = missing_name c \/ n = unk_name c.
Proof.
  intros Hc Hcr. destruct (ft_col _ _ _ H c Hc) as (toNew & fb0 & fb1 & E1 & E2 & HF).
  assert (N : forall z x, toNew !! z = Some x -> exists i, x = onehot_name c i) by (intros z x Hx; destruct (fc_names _ _ _ _ _ _ HF z x Hx) as (i & -> & _); by exists i).
  assert (H0 : forall x, x = fb0 -> x <> "" -> (exists i, x = onehot_name c i) \/ x = missing_name c \/ x = unk_name c).
  { intros x -> Hx. pose proof (fc_fb0 _ _ _ _ _ _ HF) as HB. unfold fallback0_ok in HB. destruct (oh_missing opt); [|done| | |done].
    - case_decide; [by right; left|]. destruct HB as (z & _ & Hz). left. by eapply N.
    - by right; left.
    - destruct HB as (z & _ & Hz). left. by eapply N. }
  destruct Hcr as [(toNew' & z & H1 & H2)|(Hne & fb0' & fb1' & H1 & H2)].
  - rewrite E1 in H1. injection H1 as <-. left. by eapply N.
  - rewrite E2 in H1. injection H1 as <- <-. destruct H2 as [H2| H2]; [by apply H0|].
    subst n. pose proof (fc_fb1 _ _ _ _ _ _ HF) as HB. unfold fallback1_ok in HB. destruct (oh_unknown opt); [done| | | |done].
    + apply H0; [by apply HB|done].
    + by right; right.
    + destruct HB as (z & _ & Hz). left. by eapply N.
Qed.
Lemma created_inj c1 c2 n : c1 ∈ en_cats e -> c2 ∈ en_cats e -> created e c1 n -> created e c2 n -> c1 = c2.
Proof.
  intros H1 H2 C1%created_form C2%created_form; [|done..]. destruct C1 as [[i ->]|[->| ->]], C2 as [[j E]|[E|E]].
  - by apply onehot_name_inj in E as [-> _].
  - by apply onehot_missing in E.
  - by apply onehot_unk in E.
  - symmetry in E. by apply onehot_missing in E.
  - by apply missing_name_inj.
  - by apply missing_unk in E.
  - symmetry in E. by apply onehot_unk in E.
  - symmetry in E. by apply missing_unk in E.
  - by apply unk_name_inj.
Qed.
Lemma fb0_ne c toNew fb0 fb1 vs : fitted_col opt c vs toNew fb0 fb1 -> oh_missing opt <> PError -> fb0 <> "".
Proof.
  intros HF Hm. pose proof (fc_fb0 _ _ _ _ _ _ HF) as HB. unfold fallback0_ok in HB. pose proof (name_ne c 0) as (_ & X1 & X2).
  assert (N : forall z, toNew !! z = Some fb0 -> fb0 <> "") by (intros z Hx; destruct (fc_names _ _ _ _ _ _ HF z _ Hx) as (i & -> & _); apply name_ne).
  destruct (oh_missing opt); try done; [case_decide| |]; try naive_solver congruence.
Qed.
Lemma fb1_ne c toNew fb0 fb1 vs : fitted_col opt c vs toNew fb0 fb1 -> oh_unknown opt <> PError -> fb1 <> "".
Proof.
  intros HF Hm. pose proof (fc_fb1 _ _ _ _ _ _ HF) as HB. unfold fallback1_ok in HB. pose proof (name_ne c 0) as (_ & X1 & X2).
  assert (N : forall z, toNew !! z = Some fb1 -> fb1 <> "") by (intros z Hx; destruct (fc_names _ _ _ _ _ _ HF z _ Hx) as (i & -> & _); apply name_ne).
  destruct (oh_unknown opt); try done; try naive_solver congruence.
Qed.
Lemma flag_none c z : c ∈ en_cats e -> flag_for e c z = None <-> refused opt t0 c z.
Proof.
  intros Hc. destruct (ft_col _ _ _ H c Hc) as (toNew & fb0 & fb1 & E1 & E2 & HF). unfold flag_for, refused. rewrite E1, E2, (ft_opt _ _ _ H). simpl.
  assert (Hz : z <> (-1)%Z -> toNew !! z = None <-> z ∉ t_ints t0 c).
  { intros Hz. pose proof (fc_cats _ _ _ _ _ _ HF z) as [HC1 HC2]. split.
    - intros Hn Hin. rewrite Hn in HC2. destruct HC2 as [? ?]; done.
    - intros Hn. destruct (toNew !! z); [|done]. destruct HC1 as [? _]; [by eexists|done]. }
  destruct (decide (z = (-1)%Z)) as [->|Hne]; [destruct (decide _); naive_solver|]. specialize (Hz Hne).
  destruct (toNew !! z) eqn:Et; [split; [done|]; intros [[? _]|(_ & Hn & _)]; [done|]; apply Hz in Hn; done|].
  destruct (decide _); naive_solver.
Qed.
Lemma flag_some c z n : c ∈ en_cats e -> flag_for e c z = Some n -> flagged e c z n /\ created e c n.
Proof.
  intros Hc. destruct (ft_col _ _ _ H c Hc) as (toNew & fb0 & fb1 & E1 & E2 & HF). unfold flag_for. rewrite E1, E2, (ft_opt _ _ _ H). simpl. intros Hf.
  destruct (decide (z = (-1)%Z)) as [->|Hne].
  - destruct (decide _) as [|Hp]; [done|]. injection Hf as <-. split; [exists toNew, fb0, fb1; naive_solver|]. right. split; [by eapply fb0_ne|]. exists fb0, fb1. naive_solver.
  - destruct (toNew !! z) as [x|] eqn:Et.
    + injection Hf as ->. split; [exists toNew, fb0, fb1; naive_solver|]. left. exists toNew, z. done.
    + destruct (decide _) as [|Hp]; [done|]. injection Hf as <-. split; [exists toNew, fb0, fb1; naive_solver|]. right. split; [by eapply fb1_ne|]. exists fb0, fb1. naive_solver.
Qed.
Lemma flagged_fun c z n n' : flagged e c z n -> flagged e c z n' -> n = n'.
Proof. intros (x & y & w & H1 & H2 & H3) (x' & y' & w' & H1' & H2' & H3'). naive_solver congruence. Qed.
End fitted.
