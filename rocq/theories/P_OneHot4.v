(** One-hot encoding: TransformView on a dataframe, one column after the other
    and in any schedule. *)
From Verif Require Export P_OneHot3.

Lemma ext_cell h h' a : ext h h' -> a.1 < length (h_arr h) -> cell_val h' a = cell_val h a.
Proof. intros X Ha. unfold cell_val. f_equal. unfold arr. by apply prefix_lookup_default; [apply X|]. Qed.

Section transform.
Context {rt : GoRT}.
Context (opt : oh_opt) (F : fixed opt) (t0 : table) (e : encoder) (HE : fitted opt t0 e).
Context (h : heap) (d : dframe) (W : wf h d).
Context (Hcats : forall c, c ∈ en_cats e -> is_Some (t_cols (abs h d) !! (KInt, c))) (Hne : en_cats e <> []).

Record prepared (res : dframe) (hp : heap) : Prop := {
  pr_wf : wf hp res; pr_abs : abs hp res = t_alloc KBool (en_new e) (abs h d); pr_ext : ext h hp;
  pr_strs : r_strs (d_raw res) = r_strs (d_raw d); pr_inds : inds res = inds d;
  pr_cpu : actual_max_cpu (d_raw res) = actual_max_cpu (d_raw d);
  pr_new : forall n, n ∈ en_new e -> exists t, mp hp (r_maps (d_raw res)) !! (KBool, n) = Some t /\
    fresh_col h hp t (replicate (num_alloc_rows (mp h (r_maps (d_raw d)))) (VBool false));
  pr_old : forall k, (k.1 <> KBool \/ k.2 ∉ en_new e) -> mp hp (r_maps (d_raw res)) !! k = mp h (r_maps (d_raw d)) !! k;
  pr_dist : forall n1 n2 s1 s2, n1 ∈ en_new e -> n2 ∈ en_new e -> n1 <> n2 ->
    mp hp (r_maps (d_raw res)) !! (KBool, n1) = Some s1 -> mp hp (r_maps (d_raw res)) !! (KBool, n2) = Some s2 -> s_arr s1 <> s_arr s2;
  pr_fresh : en_new e <> [] -> length (h_map h) <= r_maps (d_raw res) }.
Lemma oh_prepare_spec : exists res hp, oh_prepare e d h = Ok (res, hp) /\ prepared res hp.
Proof.
  unfold oh_prepare. pose proof (wf_view _ _ W) as Wv. pose proof Wv as [n Wn].
  assert (Hc : t_cols (abs h (view d)) <> ∅).
  { destruct (en_cats e) as [|c cs] eqn:Ec; [done|]. destruct (Hcats c) as [x Hx]; [by apply elem_of_cons; left|].
    rewrite abs_view. intros E0. by rewrite E0 in Hx. }
  destruct (alloc_cols_df h (view d) KBool (en_new e) Wv) as (r' & hp & E & W1 & A1 & _ & X & S); [by left|].
  destruct (alloc_cols_spec KBool (d_raw (view d)) (en_new e) h) as
    (r2 & h2 & E2 & B1 & B2 & B3 & B4 & B5 & B6 & B7 & B8 & B9 & B9b & B10 & B11);
    [apply Wn|intros l Hl; by apply (wf_shr _ _ _ Wn)|].
  assert (r2 = r' /\ h2 = hp) as [-> ->] by (split; congruence).
  exists (set_raw (view d) r'), hp. split; [by rewrite (bind_eq _ _ _ _ _ E)|].
  split; try done.
  - by apply X.
  - intros n1 n2 s1 s2 H1 H2 Hd L1 L2. eapply (alloc_distinct KBool (d_raw (view d)) (en_new e) h r' hp); [apply Wn|intros l Hl; by apply (wf_shr _ _ _ Wn)|exact E|exact H1|exact H2|done|done|done].
  - intros Hn. destruct (B8 eq_refl Hn) as [_ B]. simpl in *. lia.
Qed.

Context (res : dframe) (hp : heap) (P : prepared res hp).
Let m := mp hp (r_maps (d_raw res)).
Definition g (c : string) (i : nat) : Z := match m !! (KInt, c) with Some s => int_of (default (VInt 0) (cell_val hp (s_arr s, s_off s + i))) | None => 0%Z end.
Definition tgt (c : string) : addr -> Prop := target e m c (g c) (inds res).

Lemma cat_slice c : c ∈ en_cats e -> exists s, m !! (KInt, c) = Some s /\ forall i, i ∈ inds res -> i < s_len s /\ s_arr s < length (h_arr h) /\
  exists v, cell_val hp (s_arr s, s_off s + i) = Some v /\ int_of v = g c i.
Proof.
  intros Hc. destruct (Hcats c Hc) as [col Hcol]. rewrite abs_cols_lookup in Hcol.
  destruct (mp h (r_maps (d_raw d)) !! (KInt, c)) as [s|] eqn:Es; [|done]. exists s.
  assert (Em : m !! (KInt, c) = Some s) by (unfold m; rewrite (pr_old _ _ P); [done|by left]). split; [done|].
  intros i Hi. rewrite (pr_inds _ _ P) in Hi. apply elem_of_list_lookup in Hi as [j Hj].
  assert (Hcell : cell_of h d (KInt, c) j = Some (s_arr s, s_off s + i)) by (unfold cell_of; rewrite Es; simpl; by rewrite Hj).
  destruct (cell_of_valid _ _ _ _ _ W Hcell) as (Ha & v & Hv & Hk). pose proof W as [n Wn]. destruct (wfn_col _ _ _ _ _ Wn Es) as (Hok & Hn & Hr).
  pose proof (Forall_lookup_1 _ _ _ _ (wf_rng _ _ _ Wn) Hj) as Hlt. simpl in Hlt, Ha. split; [lia|]. split; [done|]. 
  assert (Hvp : cell_val hp (s_arr s, s_off s + i) = Some v).
  { rewrite (ext_cell h hp _ (pr_ext _ _ P)); done. }
  exists v. split; [done|]. unfold g. rewrite Em. by rewrite Hvp.
Qed.
Lemma flag_slice n : n ∈ en_new e -> exists t, m !! (KBool, n) = Some t /\ length (h_arr h) <= s_arr t < length (h_arr hp) /\ s_off t = 0 /\ forall i, i ∈ inds res -> i < s_len t /\ cell_val hp (s_arr t, s_off t + i) = Some (VBool false).
Proof.
  intros Hn. destruct (pr_new _ _ P n Hn) as (t & Ht & Hf). exists t. split; [done|]. destruct Hf as (F1 & F2 & F3 & F4 & F5). split; [done|]. split; [done|].
  intros i Hi. rewrite F3, replicate_length. pose proof W as [k Wn].
  assert (Hk : num_alloc_rows (mp h (r_maps (d_raw d))) = k).
  { eapply nar_ok; [apply Wn|]. destruct (en_cats e) as [|c cs] eqn:Ec; [done|]. destruct (Hcats c) as [x Hx]; [by apply elem_of_cons; left|]. apply abs_cols_ne. intros E0. by rewrite E0 in Hx. }
  rewrite Hk in *. rewrite (pr_inds _ _ P) in Hi. pose proof (wf_rng _ _ _ Wn) as HF. rewrite Forall_forall in HF. specialize (HF i Hi). simpl in HF. split; [done|].
  unfold cell_val. simpl. rewrite F2, F5. simpl. by apply lookup_replicate_2.
Qed.
Lemma flag_new c z n : c ∈ en_cats e -> flag_for e c z = Some n -> n ∈ en_new e /\ created e c n.
Proof. intros Hc Hf. destruct (flag_some opt t0 e HE c z n Hc Hf) as [_ Hcr]. split; [|done]. apply (ft_new _ _ _ HE). by exists c. Qed.
Lemma tgt_new c a : c ∈ en_cats e -> tgt c a -> length (h_arr h) <= a.1 /\ exists i n t, i ∈ inds res /\ n ∈ en_new e /\ created e c n /\ flag_for e c (g c i) = Some n /\ m !! (KBool, n) = Some t /\ a = (s_arr t, s_off t + i).
Proof.
  intros Hc (i & n & t & H1 & H2 & H3 & ->). destruct (flag_new _ _ _ Hc H2) as [Hn Hcr]. destruct (flag_slice n Hn) as (t' & Ht & Hr & _). rewrite H3 in Ht. injection Ht as <-.
  split; [simpl; lia|]. exists i, n, t. done.
Qed.

Lemma oh_job_run c h1 : c ∈ en_cats e -> wrt hp h1 -> (forall a, a.1 < length (h_arr h) -> cell_val h1 a = cell_val hp a) ->
  exists b h', run_job (oh_job e m res c) h1 = Some (b, h') /\ wrt h1 h' /\
    (b = true <-> exists i, i ∈ inds res /\ flag_for e c (g c i) = None) /\
    (forall a, cell_val h' a = cell_val h1 a \/ tgt c a /\ cell_val h' a = Some (VBool true)) /\
    (b = false -> forall a, tgt c a -> cell_val h' a = Some (VBool true)).
Proof.
  intros Hc Hw Hold. destruct (cat_slice c Hc) as (s & Hs & Hsi). unfold oh_job. rewrite Hs.
  assert (Hfb : ~ ((oh_missing (en_opt e) <> PError /\ m !! (KBool, (default ("", "") (en_fb e !! c)).1) = None) \/
                   (oh_unknown (en_opt e) <> PError /\ m !! (KBool, (default ("", "") (en_fb e !! c)).2) = None))).
  { destruct (ft_col _ _ _ HE c Hc) as (toNew & fb0 & fb1 & E1 & E2 & HF). rewrite E2, (ft_opt _ _ _ HE). simpl.
    intros [[Hp Hm]|[Hp Hm]].
    - destruct (flag_slice fb0) as (t & Ht & _); [|congruence]. apply (ft_new _ _ _ HE). exists c. split; [done|]. right. split; [by eapply fb0_ne|]. exists fb0, fb1. naive_solver.
    - destruct (flag_slice fb1) as (t & Ht & _); [|congruence]. apply (ft_new _ _ _ HE). exists c. split; [done|]. right. split; [by eapply fb1_ne|]. exists fb0, fb1. naive_solver. }
  rewrite decide_False by exact Hfb.
  destruct (flag_loop_run e m c s (g c) (inds res) h1) as (b & h' & H1 & H2 & H3 & H4 & H5).
  - intros i Hi. destruct (Hsi i Hi) as (? & Ha & v & Hv & ?). split; [done|]. exists v. rewrite Hold by done. done.
  - intros z n Hz. destruct (flag_new _ _ _ Hc Hz) as [Hn Hcr]. destruct (flag_slice n Hn) as (t & Ht & Hr & Ho & Hti). exists t. split; [done|]. intros i Hi. destruct (Hti i Hi) as [Hl Hv]. destruct (Hsi i Hi) as (_ & Hs2 & _).
    split; [lia|]. split; [done|]. pose proof (w_kinds _ _ Hw (s_arr t)) as HK. unfold cell_val in *. cbn [fst snd] in *.
    apply (f_equal (lookup (s_off t + i))) in HK. rewrite !list_lookup_fmap, Hv in HK. destruct (arr h1 (s_arr t) !! (s_off t + i)) as [v|]; [|done]. exists v. split; [done|]. by injection HK.
  - exists b, h'. done.
Qed.

Lemma oh_jobs_run cols : (forall c, c ∈ cols -> c ∈ en_cats e) -> forall h1, wrt hp h1 -> (forall a, a.1 < length (h_arr h) -> cell_val h1 a = cell_val hp a) ->
  exists errs h', seq_all ((fun c => (c, oh_job e m res c)) <$> cols) h1 = Some (errs, h') /\ wrt h1 h' /\
    (existsb snd errs = true <-> exists c i, c ∈ cols /\ i ∈ inds res /\ flag_for e c (g c i) = None) /\
    (forall a, cell_val h' a = cell_val h1 a \/ (exists c, c ∈ cols /\ tgt c a) /\ cell_val h' a = Some (VBool true)) /\
    (existsb snd errs = false -> forall c a, c ∈ cols -> tgt c a -> cell_val h' a = Some (VBool true)).
Proof.
  induction cols as [|c cols IH]; intros Hc h1 Hw Hold.
  - exists [], h1. split; [done|]. split; [done|]. split; [split; [done|]; intros (c & i & Hx & _); by apply elem_of_nil in Hx|].
    split; [by left|]. intros _ c a Hx. by apply elem_of_nil in Hx.
  - rewrite fmap_cons. cbn [seq_all]. assert (Hcc : c ∈ en_cats e) by (apply Hc; by apply elem_of_cons; left).
    destruct (oh_job_run c h1 Hcc Hw Hold) as (b & h2 & E1 & W2 & B2 & F2 & T2). rewrite E1.
    destruct (IH ltac:(intros c' Hc'; apply Hc; by apply elem_of_cons; right) h2) as (errs & h3 & E3 & W3 & B3 & F3 & T3).
    + by etrans.
    + intros a Ha. destruct (F2 a) as [->|[Ht _]]; [by apply Hold|]. apply tgt_new in Ht as [Hge _]; [lia|done].
    + rewrite E3. exists ((c, b) :: errs), h3. split; [done|]. split; [by etrans|]. split; [|split].
      * simpl. rewrite orb_true_iff, B2, B3. split.
        -- intros [(i & ? & ?)|(c' & i & ? & ? & ?)]; [exists c, i; split; [by apply elem_of_cons; left|done]|exists c', i; split; [by apply elem_of_cons; right|done]].
        -- intros (c' & i & [->|Hx]%elem_of_cons & ? & ?); [left; by exists i|right; by exists c', i].
      * intros a. destruct (F3 a) as [->|[(c' & Hc' & Ht) Ea]]; [|right; split; [exists c'; split; [by apply elem_of_cons; right|done]|done]].
        destruct (F2 a) as [->|[Ht Ea]]; [by left|]. right. split; [|done]. exists c. split; [by apply elem_of_cons; left|done].
      * simpl. intros [-> Hn]%orb_false_iff c' a [->|Hc']%elem_of_cons Ht; [|by eapply T3].
        destruct (F3 a) as [->|[_ Ea]]; [by apply T2|done].
Qed.

(** The values of a categorical column, by row. *)
Lemma ints_at c j z : c ∈ en_cats e -> t_ints (abs h d) c !! j = Some z <-> exists i, inds res !! j = Some i /\ g c i = z.
Proof.
  intros Hc. destruct (cat_slice c Hc) as (s & Hs & Hsi). destruct (Hcats c Hc) as [col Hcol].
  assert (Et : forall j, t_ints (abs h d) c !! j = the_int <$> t_cell (abs h d) (KInt, c) j).
  { intros j'. unfold t_ints, t_cell. rewrite Hcol. simpl. by rewrite list_lookup_fmap. }
  rewrite Et, (t_cell_abs _ _ _ _ W). unfold cell_of.
  assert (Es : mp h (r_maps (d_raw d)) !! (KInt, c) = Some s) by (rewrite <- (pr_old _ _ P); [done|by left]). rewrite Es. simpl.
  rewrite <- (pr_inds _ _ P). destruct (inds res !! j) as [i|] eqn:Ei; simpl; [|split; [done|by intros (? & ? & ?)]].
  assert (Hi : i ∈ inds res) by (by eapply elem_of_list_lookup_2). destruct (Hsi i Hi) as (_ & Ha & v & Hv & Eg).
  assert (Hvh : cell_val h (s_arr s, s_off s + i) = Some v).
  { rewrite <- (ext_cell h hp _ (pr_ext _ _ P)); done. }
  rewrite Hvh. simpl. change (the_int v) with (int_of v). rewrite Eg. split; [intros [= <-]; by exists i|]. intros (i' & [= <-] & <-). done.
Qed.
Lemma refused_iff : (exists c i, c ∈ en_cats e /\ i ∈ inds res /\ flag_for e c (g c i) = None) <->
  exists c z, c ∈ en_cats e /\ z ∈ t_ints (abs h d) c /\ refused opt t0 c z.
Proof.
  split.
  - intros (c & i & Hc & [j Hj]%elem_of_list_lookup & Hf). exists c, (g c i). split; [done|]. split; [|by apply (flag_none opt t0 e HE)].
    apply elem_of_list_lookup. exists j. apply ints_at; [done|]. by exists i.
  - intros (c & z & Hc & [j Hj]%elem_of_list_lookup & Hf). apply (ints_at c j z Hc) in Hj as (i & Hi & <-). exists c, i. split; [done|]. split; [by eapply elem_of_list_lookup_2|by apply (flag_none opt t0 e HE)].
Qed.

(** After the jobs. *)
Lemma written_ext h1 : wrt hp h1 -> (forall a, a.1 < length (h_arr h) -> cell_val h1 a = cell_val hp a) -> ext h h1.
Proof.
  intros Hw Hold. pose proof (pr_ext _ _ P) as [X1 X2 X3 X4 X5]. pose proof (prefix_length _ _ X1) as HL. split.
  - exists (drop (length (h_arr h)) (h_arr h1)). rewrite <- (take_drop (length (h_arr h)) (h_arr h1)) at 1. f_equal.
    apply list_eq. intros i. destruct (decide (i < length (h_arr h))) as [Hi|Hi].
    + rewrite lookup_take by done. destruct (lookup_lt_is_Some_2 _ _ Hi) as [x Hx]. rewrite Hx.
      assert (Hxp : h_arr hp !! i = Some x) by (destruct X1 as [k Ek]; rewrite Ek; by apply lookup_app_l_Some).
      assert (Hlt : i < length (h_arr h1)) by (rewrite (w_narr _ _ Hw); lia). destruct (lookup_lt_is_Some_2 _ _ Hlt) as [y Hy]. rewrite Hy. f_equal.
      apply list_eq. intros k. specialize (Hold (i, k) Hi). unfold cell_val, arr in Hold. simpl in Hold. by rewrite Hy, Hxp in Hold.
    + rewrite lookup_take_ge by lia. symmetry. apply lookup_ge_None. lia.
  - by rewrite (w_map _ _ Hw).
  - by rewrite (w_str _ _ Hw).
  - by rewrite (w_shr _ _ Hw).
  - intros l. unfold marr in *. by rewrite (w_mask _ _ Hw).
Qed.

Lemma oh_finish_spec errs h1 : wrt hp h1 ->
  (existsb snd errs = true <-> exists c i, c ∈ en_cats e /\ i ∈ inds res /\ flag_for e c (g c i) = None) ->
  (forall a, cell_val h1 a = cell_val hp a \/ (exists c, c ∈ en_cats e /\ tgt c a) /\ cell_val h1 a = Some (VBool true)) ->
  (existsb snd errs = false -> forall c a, c ∈ en_cats e -> tgt c a -> cell_val h1 a = Some (VBool true)) ->
  drop_safe e (abs h d) ->
  match oh_finish e res errs h1 with
  | Ok (Some v, h') => wf h' v /\ encoded e (abs h d) (abs h' v) /\ preserved h h' /\
      ~ (exists c z, c ∈ en_cats e /\ z ∈ t_ints (abs h d) c /\ refused opt t0 c z)
  | Ok (None, h') => preserved h h' /\ exists c z, c ∈ en_cats e /\ z ∈ t_ints (abs h d) c /\ refused opt t0 c z
  | Panic => False
  end.
Proof.
  intros Hw HB HF HT HS.
  assert (Hold : forall a, a.1 < length (h_arr h) -> cell_val h1 a = cell_val hp a).
  { intros a Ha. destruct (HF a) as [|[(c & Hc & Ht) _]]; [done|]. apply tgt_new in Ht as [Hge _]; [lia|done]. }
  pose proof (written_ext h1 Hw Hold) as X1. unfold oh_finish. destruct (existsb snd errs) eqn:Ee.
  { split; [by apply ext_preserved|]. apply refused_iff, HB. done. }
  specialize (HT eq_refl). pose proof (wrt_wf _ _ _ Hw (pr_wf _ _ P)) as W1.
  assert (HD : exists h2, (if oh_keep (en_opt e) then ret tt else drop_cols (d_raw res) (en_cats e)) h1 = Ok (tt, h2) /\ wf h2 res /\ ext h h2 /\
     abs h2 res = (if oh_keep (en_opt e) then abs h1 res else t_drop (en_cats e) (abs h1 res))).
  { destruct (oh_keep (en_opt e)) eqn:Ek; [by exists h1|]. destruct HS as [?|(Hn & Hdis & Hst)]; [congruence|].
    destruct (drop_spec h1 res (en_cats e) W1) as (h2 & E2 & W2 & A2 & _). exists h2. split; [done|]. split; [done|]. split; [|done].
    destruct W1 as [n1 W1]. destruct (drop_ext h (d_raw res) (en_cats e) h1 X1) as (h2' & E2' & X2).
    - by apply (pr_fresh _ _ P).
    - apply W1.
    - intros l Hl. by apply (wf_str _ _ _ W1).
    - intros c Hc. rewrite (wrt_ostr _ _ _ Hw). specialize (Hst c Hc). pose proof (f_equal t_strs (pr_abs _ _ P)) as ES. simpl in ES. rewrite ES. done.
    - congruence. }
  destruct HD as (h2 & E2 & W2 & X2 & A2). rewrite (bind_eq _ _ _ _ _ E2). unfold ret. split; [done|].
  assert (Hno : ~ (exists c z, c ∈ en_cats e /\ z ∈ t_ints (abs h d) c /\ refused opt t0 c z)) by (rewrite <- refused_iff; intros Hx; apply HB in Hx; congruence).
  split; [|split; [by apply ext_preserved|done]].
  destruct (wrt_shape hp h1 res Hw) as (S1 & S2 & S3 & S4 & S5).
  assert (HA : t_rows (abs h1 res) = t_rows (abs h d) /\ t_strs (abs h1 res) = t_strs (abs h d) /\ t_enc (abs h1 res) = t_enc (abs h d) /\ t_cpu (abs h1 res) = t_cpu (abs h d)).
  { rewrite S1, S3, S4, S5, (pr_abs _ _ P). done. }
  destruct HA as (R1 & R2 & R3 & R4).
  assert (Hnewcats : oh_keep (en_opt e) = false -> forall n, n ∈ en_new e -> n ∉ en_cats e).
  { intros Ek n Hn Hc. destruct HS as [?|(_ & Hdis & _)]; [congruence|]. by apply (Hdis n). }
  assert (HL : forall k, t_cols (abs h2 res) !! k = if decide (k.2 ∈ en_cats e /\ oh_keep (en_opt e) = false) then None else t_cols (abs h1 res) !! k).
  { intros k. rewrite A2. destruct (oh_keep (en_opt e)); [by rewrite decide_False by naive_solver|]. unfold t_drop. cbn [t_cols]. rewrite map_filter_lookup.
    destruct (t_cols (abs h1 res) !! k); simpl; [|by case_decide]. destruct (decide (k.2 ∈ en_cats e)).
    - rewrite option_guard_False by naive_solver. by rewrite decide_True.
    - rewrite option_guard_True by done. rewrite decide_False by naive_solver. done. }
  assert (HN : forall n, n ∈ en_new e -> t_cols (abs h2 res) !! (KBool, n) = t_cols (abs h1 res) !! (KBool, n)).
  { intros n Hn. rewrite HL. simpl. rewrite decide_False; [done|]. intros [Hc Ek]. by apply (Hnewcats Ek n). }
  split.
  - rewrite A2. by destruct (oh_keep (en_opt e)).
  - rewrite A2. destruct (oh_keep (en_opt e)) eqn:Ek; [done|]. unfold t_drop. cbn [t_strs t_enc t_cpu]. split; [|done]. rewrite R2.
    destruct HS as [?|(_ & _ & Hst)]; [congruence|]. apply set_eq. intros x. rewrite elem_of_difference, elem_of_list_to_set. split; [tauto|]. intros Hx. split; [done|]. intros Hc. by apply (Hst x).
  - intros c n j z Hc Hcr Hz. assert (Hn : n ∈ en_new e) by (apply (ft_new _ _ _ HE); by exists c).
    destruct (flag_slice n Hn) as (t & Ht & Hr & Ho & Hti).
    apply (ints_at c j z Hc) in Hz as (i & Hi & Eg). assert (Hin : i ∈ inds res) by (by eapply elem_of_list_lookup_2).
    assert (Hcell : t_cell (abs h1 res) (KBool, n) j = cell_val h1 (s_arr t, s_off t + i)).
    { rewrite (t_cell_abs _ _ _ _ W1). rewrite (wrt_cell_of _ _ _ _ _ Hw). unfold cell_of. fold m. rewrite Ht. simpl. by rewrite Hi. }
    unfold t_cell in Hcell. rewrite <- HN in Hcell by done.
    destruct (t_cols (abs h2 res) !! (KBool, n)) as [col|] eqn:Ecol.
    2:{ rewrite HN in Ecol by done. rewrite abs_cols_lookup, (wrt_mp _ _ _ Hw) in Ecol. fold m in Ecol. rewrite Ht in Ecol. done. }
    simpl in Hcell. exists col. destruct (Hti i Hin) as [_ Hf].
    destruct (HF (s_arr t, s_off t + i)) as [Ea|[(c' & Hc' & Ht') Ea]].
    + exists false. split; [done|]. split; [by rewrite Hcell, Ea|]. split; [done|]. intros Hfl. exfalso.
      destruct (flag_for e c (g c i)) as [n'|] eqn:En.
      * destruct (flag_some opt t0 e HE c _ _ Hc En) as [Hfl' _]. rewrite Eg in Hfl'. assert (n' = n) as -> by (by eapply flagged_fun).
        assert (Htg : tgt c (s_arr t, s_off t + i)) by (by exists i, n, t). specialize (HT c _ Hc Htg). congruence.
      * apply Hno. exists c, z. split; [done|]. split; [apply elem_of_list_lookup; exists j; apply ints_at; [done|by exists i]|]. rewrite <- Eg. by apply (flag_none opt t0 e HE).
    + exists true. split; [done|]. split; [by rewrite Hcell|]. split; [|done]. intros _.
      apply tgt_new in Ht' as (_ & i' & n' & t' & I1 & I2 & I3 & I4 & I5 & I6); [|done].
      assert (n' = n) as ->.
      { destruct (decide (n' = n)) as [|Hd]; [done|]. exfalso. apply (pr_dist _ _ P n' n t' t I2 Hn Hd I5 Ht). congruence. }
      unfold m in Ht, I5. rewrite I5 in Ht. injection Ht as <-. assert (i' = i) as -> by (injection I6; lia).
      assert (c' = c) as -> by (eapply created_inj; [exact HE|exact Hc'|exact Hc|exact I3|exact Hcr]).
      rewrite Eg in I4. by apply (flag_some opt t0 e HE c _ _ Hc) in I4 as [? _].
  - intros n Hn. destruct (t_cols (abs h2 res) !! (KBool, n)) as [col|] eqn:Ecol.
    + exists col. split; [done|]. rewrite HN in Ecol by done. rewrite <- R1. by apply (abs_ok h1 res W1) in Ecol as [? _].
    + rewrite HN in Ecol by done. rewrite abs_cols_lookup, (wrt_mp _ _ _ Hw) in Ecol. fold m in Ecol. destruct (flag_slice n Hn) as (t & Ht & _). rewrite Ht in Ecol. done.
  - intros k Hk. rewrite HL. destruct (decide (k.2 ∈ en_cats e /\ oh_keep (en_opt e) = false)) as [Hd|Hd]; [done|].
    assert (Heq : t_cols (abs h1 res) !! k = t_cols (abs hp res) !! k).
    { rewrite !abs_cols_lookup, (wrt_mp _ _ _ Hw). rewrite (pr_old _ _ P) by done. destruct (mp h (r_maps (d_raw d)) !! k) as [s|] eqn:Es; [|done]. simpl. f_equal.
      pose proof W as [n Wn]. destruct (wfn_col _ _ _ _ _ Wn Es) as (Hok & _).
      by rewrite (ext_sl_vals h h1 _ _ X1 Hok), (ext_sl_vals h hp _ _ (pr_ext _ _ P) Hok). }
    rewrite Heq, (pr_abs _ _ P), t_alloc_lookup. rewrite decide_False; [done|]. naive_solver.
Qed.
End transform.
