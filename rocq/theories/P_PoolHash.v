(** HashStringsView with arbitrarily scheduled workers. *)
From Verif Require Export P_Pool4.
From Verif Require Import P_Hash.

Lemma map_job_run f input output ix : forall h h',
  forM ix (fun i => let* v := sl_rd input i in sl_wr output i (f v)) h = Ok (tt, h') ->
  (forall i, i ∈ ix -> is_Some (mem_get h (s_arr output, s_off output + i))) ->
  run_job (map_job f input output ix) h = Some (tt, h').
Proof.
  induction ix as [|i ix IH]; intros h h' E Hb; [simpl in E; unfold ret in E; by injection E as ->|].
  cbn [forM] in E. unfold bind at 1 2 in E. unfold sl_rd in E.
  destruct (sl_vals h input !! i) as [v|] eqn:Ev; [|done].
  unfold sl_wr in E. destruct (decide (i < s_len output)) as [Hi|]; [|done].
  assert (Hi' : i < s_len input /\ mem_get h (s_arr input, s_off input + i) = Some v).
  { unfold sl_vals in Ev. apply lookup_take_Some in Ev as [Ev ?]. rewrite lookup_drop in Ev. done. }
  cbn [map_job]. rewrite decide_True by apply Hi'. cbn [run_job]. rewrite (proj2 Hi'). rewrite decide_True by done.
  cbn [run_job]. destruct (Hb i) as [u Hu]; [by apply elem_of_cons; left|]. rewrite Hu. apply IH; [exact E|].
  intros i' Hi2. apply mem_set_dom. apply Hb. by apply elem_of_cons; right.
Qed.
Lemma map_job_fp f input output (rs ws : addr -> Prop) ix :
  (forall i, i ∈ ix -> rs (s_arr input, s_off input + i)) -> (forall i, i ∈ ix -> ws (s_arr output, s_off output + i)) ->
  fp rs ws (map_job f input output ix).
Proof.
  induction ix as [|i ix IH]; intros H1 H2; [constructor|]. cbn [map_job].
  destruct (decide _); [|constructor]. constructor; [apply H1; by apply elem_of_cons; left|]. intros v.
  destruct (decide _); [|constructor]. constructor; [apply H2; by apply elem_of_cons; left|].
  apply IH; intros; [apply H1|apply H2]; by apply elem_of_cons; right.
Qed.
Lemma map_job_depth f input output ix : jdepth (2 * length ix) (map_job f input output ix).
Proof.
  induction ix as [|i ix IH]; [constructor|]. cbn [map_job length].
  replace (2 * S (length ix)) with (S (S (2 * length ix))) by lia.
  destruct (decide _); [|constructor]. constructor. intros v. destruct (decide _); [|constructor]. by constructor.
Qed.

Lemma hash_prepare_eq d cols h : cols <> [] ->
  hash_strings_view d cols h = (let* v := hash_prepare d cols in forM cols (hash_column d v) ;;* ret v) h.
Proof.
  intros Hc. unfold hash_strings_view, hash_prepare. rewrite decide_False by done.
  unfold bind, get_mp, ret. destruct (column_view _ _ _) as [[v h1]|]; [|done].
  by destruct (forM cols _ h1) as [[[] h2]|].
Qed.
Lemma run_job_maps {R} (j : job R) : forall h r h', run_job j h = Some (r, h') -> h_map h' = h_map h.
Proof.
  induction j as [r'| |a f IH|a v j IH]; intros h r h' E; simpl in E.
  - by injection E as -> ->.
  - done.
  - destruct (mem_get h a) as [v|]; [|done]. by eapply IH.
  - destruct (mem_get h a) as [w|]; [|done]. by rewrite (IH _ _ _ E).
Qed.

Lemma hash_seq d v cols mi mo : forall h h', forM cols (hash_column d v) h = Ok (tt, h') ->
  mp h (r_maps (d_raw d)) = mi -> mp h (r_maps (d_raw v)) = mo ->
  (forall c i, c ∈ cols -> i ∈ inds d -> let s := default nil_slice (mo !! (KInt, c)) in is_Some (mem_get h (s_arr s, s_off s + i))) ->
  seq_all ((fun c => (c, hash_job mi mo d c)) <$> cols) h = Some ((fun c => (c, tt)) <$> cols, h').
Proof.
  induction cols as [|c cols IH]; intros h h' E Hi Ho Hb; [simpl in E; unfold ret in E; by injection E as ->|].
  cbn [forM] in E. unfold bind at 1 in E. destruct (hash_column d v c h) as [[[] h1]|] eqn:E1; [|done].
  assert (R1 : run_job (hash_job mi mo d c) h = Some (tt, h1)).
  { apply map_job_run; [|intros i Hin; apply Hb; [by apply elem_of_cons; left|done]].
    unfold hash_column, bind, get_mp in E1. rewrite Hi, Ho in E1. exact E1. }
  rewrite !fmap_cons. cbn [seq_all]. rewrite R1. rewrite (IH h1 h'); [done|done| | |].
  - unfold mp in *. by rewrite (run_job_maps _ _ _ _ R1).
  - unfold mp in *. by rewrite (run_job_maps _ _ _ _ R1).
  - intros c' i Hc Hin s. apply (run_job_dom _ _ _ _ R1). apply Hb; [by apply elem_of_cons; right|done].
Qed.

Section frame.
Context {rt : GoRT}.
(** The cells the job of a column reads and writes. *)
Definition hash_rs (mi : gmap key slice) (d : dframe) (cols : list string) (c : string) (a : addr) : Prop :=
  c ∈ cols /\ exists i, i ∈ inds d /\ let s := default nil_slice (mi !! (KObj, c)) in a = (s_arr s, s_off s + i).
Definition hash_ws (mo : gmap key slice) (d : dframe) (cols : list string) (c : string) (a : addr) : Prop :=
  c ∈ cols /\ exists i, i ∈ inds d /\ let s := default nil_slice (mo !! (KInt, c)) in a = (s_arr s, s_off s + i).

Lemma hash_prepare_spec h d cols : wf h d -> cols <> [] ->
  (forall c, c ∈ cols -> is_Some (t_cols (abs h d) !! (KObj, c))) ->
  (exists k, is_Some (t_cols (abs h d) !! k) /\ k.2 ∉ cols) ->
  exists v h2 h3, let mi := mp h2 (r_maps (d_raw d)) in let mo := mp h2 (r_maps (d_raw v)) in
    hash_prepare d cols h = Ok (v, h2) /\ hash_strings_view d cols h = Ok (v, h3) /\
    seq_all ((fun c => (c, hash_job mi mo d c)) <$> cols) h2 = Some ((fun c => (c, tt)) <$> cols, h3) /\
    no_interference (hash_rs mi d cols) (hash_ws mo d cols) /\
    fps (hash_rs mi d cols) (hash_ws mo d cols) ((fun c => (c, hash_job mi mo d c)) <$> cols).
Proof.
  intros Wf Hc Hobj Hk.
  destruct (hash_strings_view_spec h d cols Wf Hc Hobj Hk) as (v' & h3 & Efull & _).
  destruct Wf as [n W]. destruct Hk as [k0 [Hk0 Hk0n]].
  set (m := mp h (r_maps (d_raw d))).
  assert (Hobj' : forall c, c ∈ cols -> exists s, m !! (KObj, c) = Some s).
  { intros c Hin. specialize (Hobj c Hin). rewrite abs_cols_lookup in Hobj. fold m in Hobj.
    destruct (m !! (KObj, c)); [eauto|by destruct Hobj]. }
  assert (Hm0 : is_Some (m !! k0)).
  { rewrite abs_cols_lookup in Hk0. fold m in Hk0. destruct (m !! k0); [eauto|by destruct Hk0]. }
  assert (Hne : m <> ∅) by (intros E; rewrite E, lookup_empty in Hm0; by destruct Hm0).
  rewrite hash_prepare_eq in Efull by done.
  unfold bind at 1 in Efull. destruct (hash_prepare d cols h) as [[v h2]|] eqn:Ep; [|done].
  unfold bind in Efull at 1. destruct (forM cols (hash_column d v) h2) as [[[] h3']|] eqn:El; [|done].
  unfold ret in Efull. assert (v' = v /\ h3 = h3') as [-> ->] by (split; congruence).
  exists v, h2, h3'. cbv zeta. split; [done|]. split.
  { rewrite hash_prepare_eq by done. rewrite (bind_eq _ _ _ _ _ Ep). by rewrite (bind_eq _ _ _ _ _ El). }
  unfold hash_prepare in Ep. erewrite bind_eq in Ep by done. fold m in Ep.
  set (others := elements (names m ∖ list_to_set cols)) in *.
  assert (Hoth : forall k, is_Some (m !! k) -> k.2 ∈ others <-> k.2 ∉ cols).
  { intros k [s Hs]. unfold others. rewrite elem_of_elements, elem_of_difference, elem_of_list_to_set.
    split; [tauto|]. intros H. split; [|done]. apply elem_of_names. destruct k. eauto. }
  assert (Hone : others <> []).
  { intros E. assert (k0.2 ∈ others) as H by (by apply Hoth). rewrite E in H. by apply elem_of_nil in H. }
  destruct (column_view_spec h d others) as
    (v1 & h1 & E1 & A1 & Wv & X1 & Ea1 & M1 & S1 & F1 & St1 & I1 & V1); [by exists n|done|].
  erewrite bind_eq in Ep by done. rewrite (nar_ok h n m (wf_cols _ _ _ W) Hne) in Ep.
  assert (Hl : r_maps (d_raw v1) < length (h_map h1)) by (destruct Wv as [? Wv]; apply Wv).
  destruct (fill_spec (r_maps (d_raw v1)) (fun c : string => (KInt, c)) (fun _ => ret (replicate n (zero_of KInt)))
              (fun _ => replicate n (zero_of KInt)) cols h1) as
    (h2' & E2 & G2 & K2 & N2 & D2); [done|done|done|].
  assert (E2' : forM cols (fun c => let* s := make_slice KInt n in put_col (r_maps (d_raw v1)) (KInt, c) s) h1 = Ok (tt, h2')).
  { rewrite <- E2. apply forM_ext. intros c hh. by rewrite make_slice_lit. }
  erewrite bind_eq in Ep by exact E2'. unfold ret in Ep. assert (v1 = v /\ h2' = h2) as [-> ->] by (split; congruence).
  assert (X2 : ext h h2) by (eapply grow_ext; [exact X1|exact G2|lia]).
  assert (Hmp2 : mp h2 (r_maps (d_raw d)) = m) by (apply (ext_mp _ _ _ X2), W).
  assert (Hout : forall c, c ∈ cols -> exists s, mp h2 (r_maps (d_raw v)) !! (KInt, c) = Some s /\
             fresh_col h1 h2 s (replicate n (zero_of KInt))).
  { intros c Hin. by destruct (N2 c Hin) as (s & Hs & Hf); exists s. }
  assert (Hap : forall c c', c ∈ cols -> c' ∈ cols -> forall i, i ∈ inds d ->
    s_arr (default nil_slice (m !! (KObj, c))) <> s_arr (default nil_slice (mp h2 (r_maps (d_raw v)) !! (KInt, c')))).
  { intros c c' Hc1 Hc2 i Hi. destruct (Hobj' c Hc1) as [s Hs]. destruct (Hout c' Hc2) as (s' & Hs' & [Hf _]). rewrite Hs, Hs'. simpl.
    destruct (wfn_col _ _ _ _ _ W Hs) as (Hcs & Hln & _).
    destruct (col_ok_arr_cases _ _ _ Hcs) as [Hlt|(Hz1 & Hz2 & Hz3)].
    - rewrite Ea1 in Hf. lia.
    - pose proof (wf_rng _ _ _ W) as HF. rewrite Forall_forall in HF. specialize (HF _ Hi). lia. }
  assert (Hdis : forall c c', c ∈ cols -> c' ∈ cols -> c <> c' ->
    s_arr (default nil_slice (mp h2 (r_maps (d_raw v)) !! (KInt, c))) <> s_arr (default nil_slice (mp h2 (r_maps (d_raw v)) !! (KInt, c')))).
  { intros c c' Hc1 Hc2 Hcc. destruct (Hout c Hc1) as (s & Hs & _), (Hout c' Hc2) as (s' & Hs' & _). rewrite Hs, Hs'. simpl.
    eapply (D2 (KInt, c) (KInt, c')); try done; try (apply elem_of_list_fmap; eauto). congruence. }
  rewrite Hmp2. split; [|split].
  - eapply hash_seq; [done..|]. intros c i Hin Hi s. subst s. destruct (Hout c Hin) as (s & Hs & Hf). rewrite Hs. simpl.
    assert (Hok : col_ok h2 KInt s) by (eapply fresh_col_ok; [done|]; by apply forall_replicate).
    assert (Hlen : i < s_len s).
    { destruct Hf as (_ & _ & Hf & _). rewrite Hf, replicate_length. pose proof (wf_rng _ _ _ W) as HF. rewrite Forall_forall in HF. by apply HF. }
    assert (Hvv : sl_vals h2 s !! i = Some (VInt 0)).
    { rewrite (fresh_col_vals _ _ _ _ Hf). apply lookup_replicate. split; [done|].
      destruct Hf as (_ & _ & Hf & _). rewrite Hf, replicate_length in Hlen. done. }
    unfold sl_vals in Hvv. apply lookup_take_Some in Hvv as [Hvv _]. rewrite lookup_drop in Hvv. unfold mem_get. simpl. by rewrite Hvv.
  - intros c c' Hcc a. split; intros [Hin (i & Hi & Ha)]; cbv zeta in Ha; (split; intros [Hin' (i' & Hi' & Ha')]; cbv zeta in Ha'; rewrite Ha in Ha').
    + injection Ha' as Ha' _. by eapply (Hap c' c).
    + injection Ha' as Ha' _. by eapply (Hdis c c').
    + injection Ha' as Ha' _. by eapply (Hap c c').
    + injection Ha' as Ha' _. by eapply (Hdis c c').
  - apply Forall_fmap, Forall_forall. intros c Hin. simpl. apply map_job_fp; intros i Hi; (split; [done|]); by exists i.
Qed.
End frame.
