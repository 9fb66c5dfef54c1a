(** One-hot encoding: the property theorems. *)
From Verif Require Export P_OneHot4 P_PrepMain.

Lemma seq_all_none {R} (l : list (string * job R)) p : p ∈ l -> (forall h, run_job p.2 h = None) -> forall h, seq_all l h = None.
Proof.
  intros Hp Hn. induction l as [|[k j] l IH]; intros h; [by apply elem_of_nil in Hp|]. cbn [seq_all]. apply elem_of_cons in Hp as [->|Hp].
  - simpl in Hn. by rewrite Hn.
  - destruct (run_job j h) as [[r h1]|]; [|done]. by rewrite IH.
Qed.
Lemma oh_finish_perm {rt : GoRT} e res errs errs' h : errs ≡ₚ errs' -> oh_finish e res errs h = oh_finish e res errs' h.
Proof.
  intros Hp. unfold oh_finish. replace (existsb snd errs') with (existsb snd errs); [done|].
  induction Hp as [|x l l' _ IH|x y l|l1 l2 l3 _ IH1 _ IH2]; simpl; [done|by rewrite IH| |by etrans]. by rewrite !orb_assoc, (orb_comm x.2).
Qed.

Section main.
Context {rt : GoRT}.

(** What a successful or failing TransformView is about. *)
Definition refused_in (opt : oh_opt) (t0 : table) (e : encoder) (t : table) : Prop :=
  exists c z, c ∈ en_cats e /\ z ∈ t_ints t c /\ refused opt t0 c z.

Lemma C55_transform_main opt t0 e h d : fixed opt -> fitted opt t0 e -> wf h d -> drop_safe e (abs h d) ->
  match oh_transform e d h with
  | Ok (Some v, h') => wf h' v /\ encoded e (abs h d) (abs h' v) /\ preserved h h' /\ ~ refused_in opt t0 e (abs h d)
  | Ok (None, h') => preserved h h' /\ refused_in opt t0 e (abs h d)
  | Panic => exists c, c ∈ en_cats e /\ t_cols (abs h d) !! (KInt, c) = None
  end.
Proof.
  intros F HE W HS. unfold oh_transform. destruct (decide (en_cats e = [])) as [Ec|Ec].
  { unfold ret. split; [by apply wf_view|]. rewrite abs_view. split.
    - assert (HN : forall n, n ∉ en_new e) by (intros n (c & Hc & _)%(ft_new _ _ _ HE); rewrite Ec in Hc; by apply elem_of_nil in Hc).
      split; [done|done| | |].
      + intros c n j z Hc. rewrite Ec in Hc. by apply elem_of_nil in Hc.
      + intros n Hn. by apply HN in Hn.
      + intros k _. rewrite decide_False; [done|]. intros [Hc _]. rewrite Ec in Hc. by apply elem_of_nil in Hc.
    - split; [apply preserved_refl|]. intros (c & z & Hc & _). rewrite Ec in Hc. by apply elem_of_nil in Hc. }
  destruct (decide (Forall (fun c => is_Some (t_cols (abs h d) !! (KInt, c))) (en_cats e))) as [Hall|Hall].
  - rewrite Forall_forall in Hall. destruct (oh_prepare_spec e h d W Hall Ec) as (res & hp & E & P).
    rewrite (bind_eq _ _ _ _ _ E). rewrite (bind_eq _ _ hp (mp hp (r_maps (d_raw res))) hp) by done.
    destruct (oh_jobs_run opt t0 e HE h d W Hall Ec res hp P (en_cats e)) with (h1 := hp) as (errs & h1 & E1 & W1 & B1 & F1 & T1); [done|done|done|].
    assert (ER : run_jobs (oh_job e (mp hp (r_maps (d_raw res))) res) (en_cats e) hp = Ok (errs, h1)) by (rewrite run_jobs_seq; by rewrite E1).
    rewrite (bind_eq _ _ _ _ _ ER).
    pose proof (oh_finish_spec opt t0 e HE h d W Hall Ec res hp P errs h1 W1 B1 F1 T1 HS) as HF.
    destruct (oh_finish e res errs h1) as [[[v|] h']|]; done.
  - apply not_Forall_Exists in Hall; [|intros c; apply _]. apply Exists_exists in Hall as (c & Hc & Hn). cbv beta in Hn. apply eq_None_not_Some in Hn.
    destruct (oh_prepare e d h) as [[res hp]|] eqn:E; [|unfold bind; rewrite E; by exists c].
    rewrite (bind_eq _ _ _ _ _ E). rewrite (bind_eq _ _ hp (mp hp (r_maps (d_raw res))) hp) by done.
    assert (ER : run_jobs (oh_job e (mp hp (r_maps (d_raw res))) res) (en_cats e) hp = Panic).
    { rewrite run_jobs_seq. rewrite (seq_all_none _ (c, oh_job e (mp hp (r_maps (d_raw res))) res c)); [done| |].
      - apply elem_of_list_fmap. by exists c.
      - intros h1. simpl. unfold oh_prepare in E. pose proof (wf_view _ _ W) as [n Wn].
        destruct (alloc_cols_spec KBool (d_raw (view d)) (en_new e) h) as
          (r2 & h2 & E2 & B1 & B2 & B3 & B4 & B5 & B6 & B7 & B8 & B9 & B9b & B10 & B11);
          [apply Wn|intros l Hl; by apply (wf_shr _ _ _ Wn)|].
        rewrite (bind_eq _ _ _ _ _ E2) in E. unfold ret in E. assert (res = set_raw (view d) r2 /\ hp = h2) as [-> ->] by (split; congruence).
        unfold oh_job. simpl. rewrite (B10 (KInt, c)) by (by left). rewrite abs_cols_lookup in Hn. simpl.
        destruct (mp h (r_maps (d_raw d)) !! (KInt, c)); [done|]. done. }
    unfold bind at 1. rewrite ER. by exists c.
Qed.

(** Exactly one flag. *)
Lemma C55_one_flag_main order (Horder : forall X, order X ≡ₚ elements X) ord (Hord : forall c b X, ord c b X ≡ₚ elements X)
  opt d0 h0 e h1 d v h h' :
  wf h0 d0 -> oh_fit order ord (oh_fix opt) d0 h0 = Ok (e, h1) ->
  wf h d -> drop_safe e (abs h d) -> oh_transform e d h = Ok (Some v, h') ->
  forall c j z, c ∈ en_cats e -> t_ints (abs h d) c !! j = Some z ->
  exists n, created e c n /\ flagged e c z n /\ t_cell (abs h' v) (KBool, n) j = Some (VBool true) /\
    forall n', created e c n' -> n' <> n -> t_cell (abs h' v) (KBool, n') j = Some (VBool false).
Proof.
  intros W0 EF W HS ET c j z Hc Hz. pose proof (oh_fit_spec order Horder ord Hord (oh_fix opt) d0 h0 (oh_fix_fixed opt) W0) as HF. rewrite EF in HF. destruct HF as (_ & HE & _).
  pose proof (C55_transform_main (oh_fix opt) (abs h0 d0) e h d (oh_fix_fixed opt) HE W HS) as HT. rewrite ET in HT. destruct HT as (_ & EC & _ & Hno).
  destruct (flag_for e c z) as [n|] eqn:En.
  - destruct (flag_some (oh_fix opt) (abs h0 d0) e HE c z n Hc En) as [Hfl Hcr]. exists n. split; [done|]. split; [done|].
    assert (HG : forall n', created e c n' -> exists b, t_cell (abs h' v) (KBool, n') j = Some (VBool b) /\ (b = true <-> flagged e c z n')).
    { intros n' Hn'. destruct (ec_flags _ _ _ EC c n' j z Hc Hn' Hz) as (col & b & E1 & E2 & E3). exists b. split; [|done]. unfold t_cell. by rewrite E1. }
    split.
    + destruct (HG n Hcr) as (b & E1 & E2). rewrite E1. by rewrite (proj2 E2 Hfl).
    + intros n' Hcr' Hne. destruct (HG n' Hcr') as (b & E1 & E2). rewrite E1. destruct b; [|done]. exfalso. apply Hne. eapply flagged_fun; [by apply E2|done].
  - exfalso. apply Hno. exists c, z. split; [done|]. split; [by eapply elem_of_list_lookup_2|]. by apply (flag_none (oh_fix opt) (abs h0 d0) e HE).
Qed.

(** Arbitrary schedules. *)
Lemma C55_fit_schedules_main order (Horder : forall X, order X ≡ₚ elements X) ord (Hord : forall c b X, ord c b X ≡ₚ elements X)
  opt d h : wf h d -> (1 <= actual_max_cpu (d_raw d))%Z -> t_cols (abs h d) !! (KInt, "") = None ->
  let cols := order (names_of KInt (mp h (r_maps (d_raw d)))) in
  forall rnd q w m s, create_queue rnd cols (actual_max_cpu (d_raw d)) = (q, w) ->
    let prog := oh_fit_job opt ord (mp h (r_maps (d_raw d))) d in
    steps true (length cols) prog m (pool_init q w h) s ->
    m <= (num_rows d + 4) * length cols + Z.to_nat w + 1 /\ p_crash s = false /\
    (closed (length cols) s -> oh_collect order opt cols (p_got s) (p_heap s) = oh_fit order ord opt d h) /\
    (~ closed (length cols) s -> exists s', step true (length cols) prog s s').
Proof.
  intros W Hcpu He cols rnd q w m s Eq prog Hst. destruct (oh_fit_eq order Horder ord opt d h W) as (E & Hnd & Hel). fold cols in E, Hnd, Hel.
  destruct (oh_fit_pool ord opt d cols h W Hnd) with (deferred := true) (rnd := rnd) (q := q) (w := w) (m := m) (s := s) as (H1 & H2 & H3 & H4); try done.
  - intros Hx. apply Hel in Hx. rewrite He in Hx. by destruct Hx.
  - intros c Hc. by apply Hel.
  - split; [done|]. split; [done|]. split; [|done]. intros Hcl. destruct (H3 Hcl) as [-> Hp]. rewrite E. apply oh_collect_perm; [done|].
    rewrite Hp. rewrite <- list_fmap_compose. by rewrite list_fmap_id.
Qed.

Lemma flag_loop_fp (e : encoder) m c s (rs ws : addr -> Prop) : forall ix,
  (forall i, i ∈ ix -> rs (s_arr s, s_off s + i)) ->
  (forall z n t i, flag_for e c z = Some n -> m !! (KBool, n) = Some t -> i ∈ ix -> ws (s_arr t, s_off t + i)) ->
  fp rs ws (flag_loop e m c s ix).
Proof.
  induction ix as [|i ix IH]; intros H1 H2; [constructor|]. cbn [flag_loop]. destruct (decide _); [|constructor].
  constructor; [apply H1; by apply elem_of_cons; left|]. intros v. destruct (flag_for e c (int_of v)) as [n|] eqn:En; [|constructor].
  destruct (m !! (KBool, n)) as [t|] eqn:Et; [|constructor]. destruct (decide _); [|constructor].
  constructor; [eapply H2; [done|done|by apply elem_of_cons; left]|]. apply IH; [intros i' Hi'; apply H1; by apply elem_of_cons; right|].
  intros z n' t' i' Hz Ht' Hi'. eapply H2; [done|done|by apply elem_of_cons; right].
Qed.
Lemma jdepth_mono {R} (j : job R) D D' : jdepth D j -> D <= D' -> jdepth D' j.
Proof. intros H. revert D'. induction H as [| |m0 a f Hf IH|m0 a v j HD IH]; intros D' HD'; try constructor; destruct D' as [|D']; try lia; constructor; intros; apply IH; lia. Qed.
Lemma flag_loop_depth (e : encoder) m c s : forall ix, jdepth (2 * length ix) (flag_loop e m c s ix).
Proof.
  induction ix as [|i ix IH]; [constructor|]. cbn [flag_loop length]. destruct (decide _); [|constructor].
  replace (2 * S (length ix)) with (S (S (2 * length ix))) by lia. constructor. intros v. destruct (flag_for e c (int_of v)) as [n|]; [|constructor].
  destruct (m !! (KBool, n)) as [t|]; [|constructor]. destruct (decide _); constructor. apply IH.
Qed.

Lemma C55_transform_schedules_main opt t0 e h d : fixed opt -> fitted opt t0 e -> wf h d -> en_cats e <> [] -> "" ∉ en_cats e ->
  (1 <= actual_max_cpu (d_raw d))%Z ->
  (forall c, c ∈ en_cats e -> is_Some (t_cols (abs h d) !! (KInt, c))) ->
  exists res hp, oh_prepare e d h = Ok (res, hp) /\
  forall rnd q w m s, create_queue rnd (en_cats e) (actual_max_cpu (d_raw d)) = (q, w) ->
    let prog := oh_job e (mp hp (r_maps (d_raw res))) res in
    steps false (length (en_cats e)) prog m (pool_init q w hp) s ->
    m <= (2 * num_rows d + 4) * length (en_cats e) + Z.to_nat w + 1 /\ p_crash s = false /\
    (closed (length (en_cats e)) s -> oh_finish e res (p_got s) (p_heap s) = oh_transform e d h) /\
    (~ closed (length (en_cats e)) s -> exists s', step false (length (en_cats e)) prog s s').
Proof.
  intros F HE W Ec He Hcpu Hall. destruct (oh_prepare_spec e h d W Hall Ec) as (res & hp & E & P). exists res, hp. split; [done|].
  intros rnd q w m s Eq prog Hst.
  destruct (oh_jobs_run opt t0 e HE h d W Hall Ec res hp P (en_cats e)) with (h1 := hp) as (errs & h1 & E1 & W1 & B1 & F1 & T1); [done|done|done|].
  assert (ET : oh_transform e d h = oh_finish e res errs h1).
  { unfold oh_transform. rewrite decide_False by done. rewrite (bind_eq _ _ _ _ _ E). rewrite (bind_eq _ _ hp (mp hp (r_maps (d_raw res))) hp) by done.
    assert (ER : run_jobs (oh_job e (mp hp (r_maps (d_raw res))) res) (en_cats e) hp = Ok (errs, h1)) by (rewrite run_jobs_seq; by rewrite E1).
    by rewrite (bind_eq _ _ _ _ _ ER). }
  assert (Hl : length (inds res) <= num_rows d) by (rewrite (pr_inds _ _ _ _ _ P); unfold inds, ilist, num_rows; rewrite take_length; lia).
  set (rs := fun (_ : string) (a : addr) => a.1 < length (h_arr h)).
  set (ws := fun (c : string) (a : addr) => c ∈ en_cats e /\ exists n t, n ∈ en_new e /\ created e c n /\ mp hp (r_maps (d_raw res)) !! (KBool, n) = Some t /\ a.1 = s_arr t).
  destruct (pool_all bool prog rs ws (en_cats e) (actual_max_cpu (d_raw d)) hp errs h1 (2 * num_rows d)) with false rnd q w m s as (H1 & H2 & H3 & H4); try done.
  - apply (ft_nodup _ _ _ HE).
  - intros c Hc. unfold prog, oh_job. destruct (cat_slice e h d W Hall res hp P c Hc) as (sl & Hs & Hsi). rewrite Hs. destruct (decide _); [constructor|].
    apply flag_loop_fp.
    + intros i Hi. destruct (Hsi i Hi) as (_ & Ha & _). done.
    + intros z nn t i Hz Ht Hi. split; [done|]. destruct (flag_new opt t0 e HE c z nn Hc Hz) as [Hn Hcr]. exists nn, t. done.
  - intros c c' a Hne [Hc (n & t & Hn & Hcr & Ht & Ha)]. destruct (flag_slice e h d W Hall Ec res hp P n Hn) as (t' & Ht' & Hr & _).
    rewrite Ht in Ht'. injection Ht' as <-. split; [unfold rs; lia|]. intros [Hc' (n' & t' & Hn' & Hcr' & Ht' & Ha')].
    destruct (decide (n' = n)) as [->|Hd].
    + apply Hne. by eapply (created_inj opt t0 e HE).
    + apply (pr_dist _ _ _ _ _ P n' n t' t Hn' Hn Hd Ht' Ht). congruence.
  - intros c Hc. unfold prog, oh_job. destruct (_ !! (KInt, c)) as [sl|]; [|constructor]. destruct (decide _); [constructor|].
    eapply jdepth_mono; [apply flag_loop_depth|lia].
  - split; [done|]. split; [done|]. split; [|done]. intros Hcl. destruct (H3 Hcl) as [-> Hp]. rewrite ET. by apply oh_finish_perm.
Qed.

(** C56 *)
Lemma C56_names_main : (forall c1 c2 i1 i2, onehot_name c1 i1 = onehot_name c2 i2 -> c1 = c2 /\ i1 = i2) /\
  (forall c1 c2, missing_name c1 = missing_name c2 -> c1 = c2) /\ (forall c1 c2, unk_name c1 = unk_name c2 -> c1 = c2) /\
  (forall c1 c2 i, onehot_name c1 i <> missing_name c2 /\ onehot_name c1 i <> unk_name c2 /\ missing_name c1 <> unk_name c2).
Proof.
  split; [exact onehot_name_inj|]. split; [exact missing_name_inj|]. split; [exact unk_name_inj|].
  intros c1 c2 i. split; [apply onehot_missing|]. split; [apply onehot_unk|apply missing_unk].
Qed.
Lemma C56_fitted_main order (Horder : forall X, order X ≡ₚ elements X) ord (Hord : forall c b X, ord c b X ≡ₚ elements X)
  opt d h e h' : wf h d -> oh_fit order ord (oh_fix opt) d h = Ok (e, h') ->
  NoDup (en_new e) /\
  (forall n, n ∈ en_new e -> exists c, c ∈ en_cats e /\ created e c n /\ forall c', c' ∈ en_cats e -> created e c' n -> c' = c) /\
  (forall c1 m1 c2 m2 z1 z2 n, c1 ∈ en_cats e -> c2 ∈ en_cats e -> en_map e !! c1 = Some m1 -> en_map e !! c2 = Some m2 ->
     m1 !! z1 = Some n -> m2 !! z2 = Some n -> c1 = c2 /\ z1 = z2).
Proof.
  intros W EF. pose proof (oh_fit_spec order Horder ord Hord (oh_fix opt) d h (oh_fix_fixed opt) W) as HF. rewrite EF in HF. destruct HF as (_ & HE & _).
  split; [apply (ft_new_nodup _ _ _ HE)|]. split.
  - intros n (c & Hc & Hcr)%(ft_new _ _ _ HE). exists c. split; [done|]. split; [done|]. intros c' Hc' Hcr'. by eapply (created_inj (oh_fix opt) (abs h d) e HE).
  - intros c1 m1 c2 m2 z1 z2 n H1 H2 E1 E2 L1 L2.
    assert (c1 = c2) as ->. { eapply (created_inj (oh_fix opt) (abs h d) e HE); [done|done|left; by exists m1, z1|left; by exists m2, z2]. }
    split; [done|]. rewrite E1 in E2. injection E2 as <-. destruct (ft_col _ _ _ HE c2 H2) as (toNew & fb0 & fb1 & E3 & _ & HFc). rewrite E1 in E3. injection E3 as <-.
    by eapply (fc_inj _ _ _ _ _ _ HFc).
Qed.

(** C57 *)
Lemma C55_fit_main order (Horder : forall X, order X ≡ₚ elements X) ord (Hord : forall c b X, ord c b X ≡ₚ elements X) opt d h : wf h d ->
  match oh_fit order ord (oh_fix opt) d h with
  | Ok (e, h') => h' = h /\ fitted (oh_fix opt) (abs h d) e
  | Panic => True
  end.
Proof.
  intros W. pose proof (oh_fit_spec order Horder ord Hord (oh_fix opt) d h (oh_fix_fixed opt) W) as HF.
  destruct (oh_fit _ _ _ _ _) as [[e h']|]; [|done]. by destruct HF as (? & ? & _).
Qed.
Lemma C57_fit_partial_main order (Horder : forall X, order X ≡ₚ elements X) ord (Hord : forall c b X, ord c b X ≡ₚ elements X) opt d h : wf h d ->
  oh_fit order ord (oh_fix opt) d h = Panic <-> exists c, is_Some (t_cols (abs h d) !! (KInt, c)) /\ no_fallback (oh_fix opt) (t_ints (abs h d) c).
Proof.
  intros W. pose proof (oh_fit_spec order Horder ord Hord (oh_fix opt) d h (oh_fix_fixed opt) W) as HF.
  destruct (oh_fit _ _ _ _ _) as [[e h']|]; [|done]. destruct HF as (_ & _ & HN). split; [done|]. intros (c & Hc & Hno). by apply HN in Hno.
Qed.
Lemma C57_error_main order (Horder : forall X, order X ≡ₚ elements X) ord (Hord : forall c b X, ord c b X ≡ₚ elements X) opt d0 h0 e h1 d h :
  wf h0 d0 -> oh_fit order ord (oh_fix opt) d0 h0 = Ok (e, h1) -> wf h d -> drop_safe e (abs h d) ->
  (forall c, is_Some (t_cols (abs h0 d0) !! (KInt, c)) -> is_Some (t_cols (abs h d) !! (KInt, c))) ->
  (exists h', oh_transform e d h = Ok (None, h') /\ preserved h h') <->
  exists c z, is_Some (t_cols (abs h0 d0) !! (KInt, c)) /\ z ∈ t_ints (abs h d) c /\
    (z = (-1)%Z /\ oh_missing (oh_fix opt) = PError \/ z <> (-1)%Z /\ z ∉ t_ints (abs h0 d0) c /\ oh_unknown (oh_fix opt) = PError).
Proof.
  intros W0 EF W HS Hc. pose proof (oh_fit_spec order Horder ord Hord (oh_fix opt) d0 h0 (oh_fix_fixed opt) W0) as HF. rewrite EF in HF. destruct HF as (_ & HE & _).
  pose proof (C55_transform_main (oh_fix opt) (abs h0 d0) e h d (oh_fix_fixed opt) HE W HS) as HT.
  assert (HR : refused_in (oh_fix opt) (abs h0 d0) e (abs h d) <-> exists c z, is_Some (t_cols (abs h0 d0) !! (KInt, c)) /\ z ∈ t_ints (abs h d) c /\
    (z = (-1)%Z /\ oh_missing (oh_fix opt) = PError \/ z <> (-1)%Z /\ z ∉ t_ints (abs h0 d0) c /\ oh_unknown (oh_fix opt) = PError)).
  { unfold refused_in, refused. split; intros (c & z & H1 & H2 & H3); exists c, z; (split; [by apply (ft_cats _ _ _ HE)|done]). }
  rewrite <- HR. destruct (oh_transform e d h) as [[[v|] h']|].
  - destruct HT as (_ & _ & _ & Hno). split; [by intros (? & ? & _)|]. intros Hx. by apply Hno in Hx.
  - destruct HT as [Hp Hr]. split; [done|]. intros _. by exists h'.
  - destruct HT as (c & Hcc & Hn). apply (ft_cats _ _ _ HE) in Hcc. apply Hc in Hcc. rewrite Hn in Hcc. by destruct Hcc.
Qed.
Lemma C57_shared_partial_main opt t0 e c m fb0 fb1 : fitted opt t0 e -> c ∈ en_cats e -> en_map e !! c = Some m -> en_fb e !! c = Some (fb0, fb1) ->
  oh_unknown opt = PShared -> (oh_missing opt = PSeparate \/ oh_missing opt = PIfSeen /\ (-1)%Z ∈ t_ints t0 c) ->
  fb0 = missing_name c /\ fb1 = missing_name c /\ forall z, m !! z <> Some fb0.
Proof.
  intros HE Hc Em Ef Hu Hm. destruct (ft_col _ _ _ HE c Hc) as (toNew & g0 & g1 & E1 & E2 & HF). rewrite Em in E1. injection E1 as <-. rewrite Ef in E2. injection E2 as <- <-.
  pose proof (fc_fb0 _ _ _ _ _ _ HF) as H0. pose proof (fc_fb1 _ _ _ _ _ _ HF) as H1. unfold fallback1_ok in H1. rewrite Hu in H1. destruct H1 as [-> _].
  assert (fb0 = missing_name c) as ->.
  { unfold fallback0_ok in H0. destruct Hm as [Hm|[Hm Hin]]; rewrite Hm in H0; [done|]. by rewrite decide_True in H0. }
  split; [done|]. split; [done|]. intros z Hz. destruct (fc_names _ _ _ _ _ _ HF _ _ Hz) as (i & E & _). symmetry in E. by apply onehot_missing in E.
Qed.
End main.

(** ** Concrete cases *)
Section wit.
Existing Instance ex_rt.
Definition ord0 (c : string) (b : bool) (X : gset Z) : list Z := if b then elements X else reverse (elements X).
Lemma ord0_perm c b X : ord0 c b X ≡ₚ elements X.
Proof. unfold ord0. destruct b; [done|]. apply reverse_Permutation. Qed.
Fixpoint add_ints (cols : list (string * list Z)) (r : raw) : M raw :=
  match cols with [] => ret r | (c, vs) :: cols => let* r := b_add KInt r c (VInt <$> vs) in add_ints cols r end.
Definition int_frame (cols : list (string * list Z)) : dframe * heap := run_df (let* r := new_raw in let* r := add_ints cols r in to_dataframe r) heap0.
Definition no_enc : encoder := Encoder [] [] ∅ ∅ (OhOpt PError PError false).
Definition run_ohfit (opt : oh_opt) (p : dframe * heap) : encoder := match oh_fit elts ord0 (oh_fix opt) p.1 p.2 with Ok (e, _) => e | Panic => no_enc end.
Definition run_oh (e : encoder) (p : dframe * heap) : option (dframe * heap) := match oh_transform e p.1 p.2 with Ok (Some v, h) => Some (v, h) | _ => None end.
Definition oh_show (o : option (dframe * heap)) (n : string) : option (list val) := '(v, h) ← o; show KBool n h v.

Definition w_train := int_frame [("a", [3; 5; 3; -1]); ("b", [7; 7; 7; 7])]%Z.
Definition w_test := int_frame [("a", [5; -1; 8; 3]); ("b", [7; 0; 7; -1])]%Z.
Definition w_opt := OhOpt PIfSeen PSeparate false.
Definition w_enc := run_ohfit w_opt w_train.
Lemma C55_check_main : wf w_train.2 w_train.1 /\ wf w_test.2 w_test.1 /\
  oh_fit elts ord0 (oh_fix w_opt) w_train.1 w_train.2 = Ok (w_enc, w_train.2) /\
  ((en_new w_enc : list string) ≡ₚ ["a_onehot0"; "a_onehot1"; "a_missing"; "a_unk"; "b_onehot0"; "b_unk"]) /\
  oh_show (run_oh w_enc w_test) "a_onehot0" = Some (VBool <$> [false; false; false; true]) /\
  oh_show (run_oh w_enc w_test) "a_onehot1" = Some (VBool <$> [true; false; false; false]) /\
  oh_show (run_oh w_enc w_test) "a_missing" = Some (VBool <$> [false; true; false; false]) /\
  oh_show (run_oh w_enc w_test) "a_unk" = Some (VBool <$> [false; false; true; false]) /\
  oh_show (run_oh w_enc w_test) "b_onehot0" = Some (VBool <$> [true; false; true; true]) /\
  oh_show (run_oh w_enc w_test) "b_unk" = Some (VBool <$> [false; true; false; false]).
Proof.
  split; [apply (wf_check_sound _ _ 4); by vm_compute|]. split; [apply (wf_check_sound _ _ 4); by vm_compute|]. split; [by vm_compute|].
  split; [apply (bool_decide_unpack _); by vm_compute|]. split_and!; by vm_compute.
Qed.
Lemma C55_check2_main : drop_safe w_enc (abs w_test.2 w_test.1) /\ "" ∉ en_cats w_enc /\ (1 <= actual_max_cpu (d_raw w_test.1))%Z.
Proof.
  split; [|split; [apply (bool_decide_unpack _); by vm_compute|by vm_compute]].
  right. split; [by vm_compute|]. 
  assert (E : en_cats w_enc = ["b"; "a"]) by (by vm_compute). rewrite E.
  assert (H1 : Forall (fun c => c ∉ en_new w_enc) ["b"; "a"]) by (apply (bool_decide_unpack _); by vm_compute).
  assert (H2 : Forall (fun c => c ∉ t_strs (abs w_test.2 w_test.1)) ["b"; "a"]) by (apply (bool_decide_unpack _); by vm_compute).
  rewrite !Forall_forall in *. split; [exact H1|exact H2].
Qed.

(** A new column that has the name of a categorical column is dropped. *)
Definition w_clash := int_frame [("a", [4; 4]); ("a_onehot0", [6; 6])]%Z.
Definition w_clash_enc := run_ohfit w_opt w_clash.
Lemma C55_name_clash_refuted_main : exists d h e v h', wf h d /\ oh_fit elts ord0 (oh_fix w_opt) d h = Ok (e, h) /\
  oh_transform e d h = Ok (Some v, h') /\ created e "a" "a_onehot0" /\ t_ints (abs h d) "a" = [4; 4]%Z /\
  t_cols (abs h' v) !! (KBool, "a_onehot0") = None.
Proof.
  exists w_clash.1, w_clash.2, w_clash_enc, (default w_clash (run_oh w_clash_enc w_clash)).1, (default w_clash (run_oh w_clash_enc w_clash)).2.
  split; [apply (wf_check_sound _ _ 2); by vm_compute|]. split; [by vm_compute|]. split; [by vm_compute|].
  split; [|split; by vm_compute]. left. exists {[4%Z := "a_onehot0"]}, 4%Z. split; by vm_compute.
Qed.
(** No new column: the categorical columns of the original dataframe are lost. *)
Definition w_none := int_frame [("a", [-1; -1])]%Z.
Definition w_none_v := run_df (index_view w_none.1 []) w_none.2.
Definition w_none_enc := run_ohfit (OhOpt PError PError false) w_none.
Lemma C55_original_refuted_main : exists d h v h1 e r h2, wf h d /\ index_view d [] h = Ok (v, h1) /\
  oh_fit elts ord0 (oh_fix (OhOpt PError PError false)) d h1 = Ok (e, h1) /\ oh_transform e v h1 = Ok (Some r, h2) /\
  t_ints (abs h1 d) "a" = [-1; -1]%Z /\ t_cols (abs h2 d) !! (KInt, "a") = None.
Proof.
  exists w_none.1, w_none.2, w_none_v.1, w_none_v.2, w_none_enc, (default w_none (run_oh w_none_enc w_none_v)).1, (default w_none (run_oh w_none_enc w_none_v)).2.
  split; [apply (wf_check_sound _ _ 2); by vm_compute|]. split_and!; by vm_compute.
Qed.
(** Fit panics. *)
Lemma C57_fit_refuted_main : exists d h d2 h2, wf h d /\ wf h2 d2 /\
  oh_fit elts ord0 (oh_fix (OhOpt PShared PError false)) d h = Panic /\
  oh_fit elts ord0 (oh_fix (OhOpt PFrequent PError false)) d2 h2 = Panic /\
  oh_fit elts ord0 (oh_fix (OhOpt PSeparate PError false)) d h = Ok (run_ohfit (OhOpt PSeparate PError false) w_train, h).
Proof.
  exists w_train.1, w_train.2, w_none.1, w_none.2.
  split; [apply (wf_check_sound _ _ 4); by vm_compute|]. split; [apply (wf_check_sound _ _ 2); by vm_compute|]. split_and!; by vm_compute.
Qed.
(** Shared without missing values in the training data: not a separate category. *)
Definition w_sh := int_frame [("a", [3; 3; 5])]%Z.
Definition w_sh_test := int_frame [("a", [7])]%Z.
Definition w_sh_enc := run_ohfit (OhOpt PShared PShared false) w_sh.
Lemma C57_shared_refuted_main : exists d0 h0 d h e v h' n, wf h0 d0 /\ wf h d /\
  oh_fit elts ord0 (oh_fix (OhOpt PShared PShared false)) d0 h0 = Ok (e, h0) /\ oh_transform e d h = Ok (Some v, h') /\
  t_ints (abs h d) "a" = [7%Z] /\ 7%Z ∉ t_ints (abs h0 d0) "a" /\
  flagged e "a" 3 n /\ t_cols (abs h' v) !! (KBool, n) = Some [VBool true].
Proof.
  exists w_sh.1, w_sh.2, w_sh_test.1, w_sh_test.2, w_sh_enc, (default w_sh (run_oh w_sh_enc w_sh_test)).1, (default w_sh (run_oh w_sh_enc w_sh_test)).2, "a_onehot0".
  split; [apply (wf_check_sound _ _ 3); by vm_compute|]. split; [apply (wf_check_sound _ _ 1); by vm_compute|].
  split; [by vm_compute|]. split; [by vm_compute|]. split; [by vm_compute|]. split; [apply (bool_decide_unpack _); by vm_compute|].
  split; [|by vm_compute]. exists (default ∅ (en_map w_sh_enc !! "a")), (default ("","") (en_fb w_sh_enc !! "a")).1, (default ("","") (en_fb w_sh_enc !! "a")).2.
  split; [by vm_compute|]. split; [by vm_compute|]. right. left. split; [done|by vm_compute].
Qed.
Lemma C57_check_main : (run_oh (run_ohfit (OhOpt PError PSeparate false) w_train) w_test = None) /\
  oh_show (run_oh (run_ohfit (OhOpt PSeparate PShared false) w_train) w_test) "a_missing" = Some (VBool <$> [false; true; true; false]).
Proof. split; by vm_compute. Qed.
End wit.
