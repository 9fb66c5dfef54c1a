(** C24: HashStringsView on all inputs. *)
From Verif Require Export P_ReadMain.
From Verif Require Import P_Hash P_View2 P_Fill P_Exec.
From stdpp Require Import strings list.
From Verif Require Import Spec_Hash2 P_Base P_Check.

Section frame.
Context {rt : GoRT}.

(** As hash_loop, where the output columns may be in the map of [d]. *)
Lemma hash_loop_onto d n l cols out : forall h, wfn h d n ->
  (forall c, c ∈ cols -> exists s, mp h (r_maps (d_raw d)) !! (KObj, c) = Some s) ->
  (forall c, c ∈ cols -> mp h l !! (KInt, c) = Some (out c) /\ col_ok h KInt (out c) /\ s_len (out c) = n) ->
  (forall c c' s, n <> 0 -> c ∈ cols -> mp h (r_maps (d_raw d)) !! (KObj, c') = Some s -> s_arr s <> s_arr (out c)) ->
  (forall c1 c2, c1 ∈ cols -> c2 ∈ cols -> c1 <> c2 -> s_arr (out c1) <> s_arr (out c2)) ->
  forall res, r_maps (d_raw res) = l ->
  exists h', forM cols (hash_column d res) h = Ok (tt, h') /\ wrt h h' /\
    (forall a, (forall c, c ∈ cols -> a.1 <> s_arr (out c)) -> cell_val h' a = cell_val h a) /\
    (forall c s, c ∈ cols -> mp h (r_maps (d_raw d)) !! (KObj, c) = Some s ->
       forall i, i ∈ inds d -> sl_vals h' (out c) !! i = hash_val <$> sl_vals h s !! i).
Proof.
  induction cols as [|c cols IH]; intros h W Hin Hout Hap Hdis res Hres.
  - exists h. split; [done|]. split; [done|]. split; [done|]. intros c s Hc. by apply elem_of_nil in Hc.
  - destruct (Hin c) as [s Hs]; [set_solver|]. destruct (Hout c) as (Ho & Hok & Hl); [set_solver|].
    destruct (wfn_col _ _ _ _ _ W Hs) as (Hcs & Hls & _).
    pose proof (wf_rng _ _ _ W) as HF.
    destruct (map_into_spec hash_val KObj KInt s (out c)) with (ix := inds d) (h := h)
      as (h1 & E1 & W1 & O1 & V1); [intros; apply hash_val_kind|done|done| | | |].
    { intros Hix. eapply Hap; [|set_solver|exact Hs]. intros ->.
      destruct (inds d); [done|]. apply Forall_cons_1 in HF as [? _]. lia. }
    { eapply Forall_impl; [exact HF|]. simpl. intros; lia. }
    { eapply Forall_impl; [exact HF|]. simpl. intros; lia. }
    assert (Eh : hash_column d res c h = Ok (tt, h1)).
    { unfold hash_column. unfold bind, get_mp. rewrite Hres, Hs, Ho. simpl. exact E1. }
    assert (Hold : forall c' s', mp h (r_maps (d_raw d)) !! (KObj, c') = Some s' -> sl_vals h1 s' = sl_vals h s').
    { intros c' s' Hs'. destruct (wfn_col _ _ _ _ _ W Hs') as (_ & Hl' & _).
      destruct (decide (n = 0)) as [Hz|Hz]; [rewrite !sl_vals_len0 by lia; done|].
      apply sl_vals_other. intros a Ha. apply O1. rewrite Ha.
      eapply Hap; [done|set_solver|exact Hs']. }
    destruct (IH h1) with (res := res) as (h2 & E2 & W2 & O2 & V2); [by eapply wrt_wfn| | | | |done|].
    { intros c' Hc'. rewrite (wrt_mp _ _ _ W1). apply Hin. set_solver. }
    { intros c' Hc'. rewrite (wrt_mp _ _ _ W1). destruct (Hout c') as (? & ? & ?); [set_solver|].
      split; [done|]. split; [|done]. by eapply wrt_col_ok. }
    { intros c1 c' s'. rewrite (wrt_mp _ _ _ W1). intros. eapply Hap; [done|set_solver|done]. }
    { intros. apply Hdis; set_solver. }
    exists h2. split; [simpl; by rewrite (bind_eq _ _ _ _ _ Eh)|]. split; [by etrans|]. split.
    + intros a Ha. rewrite O2 by (intros; apply Ha; set_solver). apply O1. apply Ha. set_solver.
    + intros c1 s1 Hc1 Hs1 i Hi.
      destruct (decide (c1 ∈ cols)) as [Hi1|Hi1].
      * rewrite (V2 c1 s1) by (rewrite ?(wrt_mp _ _ _ W1); done).
        by rewrite (Hold _ _ Hs1).
      * apply elem_of_cons in Hc1 as [->|?]; [|done].
        rewrite (sl_vals_other h1 h2).
        -- rewrite Hs in Hs1. injection Hs1 as <-.
           rewrite V1.
           ++ by rewrite decide_True.
           ++ rewrite Hl. rewrite Forall_forall in HF. by apply HF.
        -- intros a Ha. apply O2. intros c' Hc'. rewrite Ha. apply Hdis; [set_solver..|]. by intros ->.
Qed.

Lemma abs_obj h d c : is_Some (t_cols (abs h d) !! (KObj, c)) <-> is_Some (mp h (r_maps (d_raw d)) !! (KObj, c)).
Proof. rewrite abs_cols_lookup. by rewrite fmap_is_Some. Qed.

Lemma C24_all_columns_main : forall (h : heap) (d : dframe) (cols : list string), wf h d -> cols <> [] ->
  (forall c, c ∈ cols -> is_Some (t_cols (abs h d) !! (KObj, c))) ->
  (forall k, is_Some (t_cols (abs h d) !! k) -> k.2 ∈ cols) ->
  exists h', hash_strings_view d cols h = Ok (view d, h') /\
    (* the original dataframe has been changed *)
    wf h' d /\ abs h' d = t_hash_onto cols (abs h d) /\ abs h' (view d) = abs h' d /\
    (* but no dataframe that has other maps *)
    forall d', wf h d' -> r_maps (d_raw d') <> r_maps (d_raw d) -> wf h' d' /\ abs h' d' = abs h d'.
Proof.
  intros h d cols [n W] Hc Hobj Hall.
  set (m := mp h (r_maps (d_raw d))). set (l := r_maps (d_raw d)).
  assert (Hobj' : forall c, c ∈ cols -> exists s, m !! (KObj, c) = Some s) by (intros c Hin; by apply abs_obj, Hobj).
  assert (Hne : m <> ∅).
  { destruct cols as [|c cols]; [done|]. destruct (Hobj' c) as [s Hs]; [by left|]. intros E. by rewrite E, lookup_empty in Hs. }
  unfold hash_strings_view. rewrite decide_False by done. erewrite bind_eq by done. fold m.
  assert (Hoth : elements (names m ∖ list_to_set cols) = []).
  { apply elements_empty_iff. intros c. rewrite elem_of_difference, elem_of_list_to_set, elem_of_names. 
    split; [|by rewrite elem_of_empty]. intros [(k & s & Hs) Hn]. destruct Hn. apply (Hall (k, c)).
    rewrite abs_cols_lookup, fmap_is_Some. eauto. }
  rewrite Hoth. erewrite bind_eq by apply column_view_nil. rewrite (nar_ok h n m (wf_cols _ _ _ W) Hne).
  change (r_maps (d_raw (view d))) with l.
  destruct (fill_spec l (fun c : string => (KInt, c)) (fun _ => ret (replicate n (zero_of KInt)))
              (fun _ => replicate n (zero_of KInt)) cols h) as
    (h2 & E2 & G2 & K2 & N2 & D2); [apply W|done|done|].
  assert (E2' : forM cols (fun c => let* s := make_slice KInt n in put_col l (KInt, c) s) h = Ok (tt, h2)).
  { rewrite <- E2. apply forM_ext. intros c hh. by rewrite make_slice_lit. }
  erewrite bind_eq by exact E2'.
  set (out := fun c => default nil_slice (mp h2 l !! (KInt, c))).
  assert (Hout : forall c, c ∈ cols -> mp h2 l !! (KInt, c) = Some (out c) /\
             fresh_col h h2 (out c) (replicate n (zero_of KInt))).
  { intros c Hin. destruct (N2 c Hin) as (s & Hs & Hf). unfold out. rewrite Hs. done. }
  assert (Hmp2 : forall k, mp h2 l !! k = if decide (k.1 = KInt /\ k.2 ∈ cols) then Some (out k.2) else m !! k).
  { intros [k c]. simpl. case_decide as Hd; [destruct Hd as [-> Hin]; by apply Hout|].
    apply K2. intros (c' & [= -> ->] & Hc')%elem_of_list_fmap. by destruct Hd. }
  assert (Hokc : forall c, c ∈ cols -> col_ok h2 KInt (out c) /\ s_len (out c) = n).
  { intros c Hin. destruct (Hout c Hin) as [Ho Hf]. split.
    - eapply fresh_col_ok; [done|]. by apply forall_replicate.
    - destruct Hf as (_ & _ & Hf & _). by rewrite Hf, replicate_length. }
  assert (W2 : wfn h2 d n).
  { split.
    - rewrite (g_len _ _ _ G2). apply W.
    - intros x Hx. rewrite (g_str _ _ _ G2). by apply (wf_str _ _ _ W).
    - intros x Hx. rewrite (g_shr _ _ _ G2). by apply (wf_shr _ _ _ W).
    - intros k s Hk. fold l in Hk. rewrite Hmp2 in Hk. case_decide as Hd.
      + injection Hk as <-. destruct Hd as [-> Hd]. by apply Hokc.
      + destruct (wfn_col _ _ _ _ _ W Hk) as (Hcs & Hln & _). split; [|done]. by eapply grow_col_ok.
    - apply W.
    - apply W.
    - apply W.
    - destruct (wf_mask _ _ _ W) as [? ?]. split; [done|]. unfold marr. by rewrite (g_mask _ _ _ G2).
    - apply W. }
  destruct (hash_loop_onto d n l cols out h2 W2) with (res := view d) as (h3 & E3 & W3 & O3 & V3).
  { intros c Hin. fold l. destruct (Hobj' c Hin) as [s Hs]. exists s. rewrite Hmp2. by rewrite decide_False by (intros [? _]; done). }
  { intros c Hin. destruct (Hout c Hin) as [Ho Hf]. split; [done|]. by apply Hokc. }
  { intros c c' s Hnz Hin Hs. fold l in Hs. rewrite Hmp2, decide_False in Hs by (intros [? _]; done).
    destruct (Hout c Hin) as [_ [Hf Hf']]. destruct (wfn_col _ _ _ _ _ W Hs) as (Hcs & Hln & _).
    destruct (col_ok_arr_cases _ _ _ Hcs) as [Hlt|(Hz1 & Hz2 & Hz3)]; lia. }
  { intros c1 c2 H1 H2 Hne12. destruct (Hout c1 H1) as [Ho1 _], (Hout c2 H2) as [Ho2 _].
    eapply (D2 (KInt, c1) (KInt, c2)); try done; try (apply elem_of_list_fmap; eauto).
    congruence. }
  { done. }
  rewrite (bind_eq _ _ _ _ _ E3). exists h3. split; [done|].
  assert (W3d : wfn h3 d n) by (by eapply wrt_wfn).
  (* old arrays *)
  assert (Hvals : forall k s, col_ok h k s -> sl_vals h3 s = sl_vals h s).
  { intros k s Hok. destruct (col_ok_arr_cases _ _ _ Hok) as [Hlt|(Hz1 & Hz2 & Hz3)]; [|by rewrite !sl_vals_len0].
    rewrite <- (grow_sl_vals _ _ _ _ _ G2 Hok). apply sl_vals_other. intros a Ha. apply O3. intros c Hin.
    destruct (Hout c Hin) as [_ [Hf _]]. lia. }
  split; [by exists n|]. split; [|split; [done|]].
  - unfold t_hash_onto. unfold abs at 1. f_equal.
    + apply map_eq. intros k. rewrite lookup_fmap. fold l. rewrite (wrt_mp _ _ _ W3), Hmp2.
      case_decide as Hd.
      * destruct k as [k c], Hd as [Hd1 Hd2]. simpl in Hd1, Hd2. subst k. simpl.
        destruct (Hobj' c Hd2) as [s Hs].
        rewrite (hash_cols_lookup_in _ cols _ c (pick (inds d) (sl_vals h s))); [|done|rewrite lookup_fmap; fold m; by rewrite Hs].
        f_equal. rewrite <- pick_fmap.
        assert (forall ix, (forall i, i ∈ ix -> i ∈ inds d) ->
          pick ix (sl_vals h3 (out c)) = pick ix (spec_hash <$> sl_vals h s)) as HH.
        { induction ix as [|i ix IH]; intros Hix; [done|].
          rewrite !pick_cons, IH by set_solver.
          rewrite (V3 c s Hd2); [|fold l; rewrite Hmp2; by rewrite decide_False by (intros [? _]; done)|apply Hix; set_solver].
          assert (sl_vals h2 s = sl_vals h s) as ->.
          { destruct (wfn_col _ _ _ _ _ W Hs) as (Hcs & _). by eapply grow_sl_vals. }
          rewrite list_lookup_fmap. destruct (sl_vals h s !! i); [|done]. simpl. by rewrite hash_val_spec. }
        by apply HH.
      * rewrite hash_cols_lookup_out by (destruct (decide (k.1 = KInt)); naive_solver).
        rewrite abs_cols_lookup. fold m. destruct (m !! k) as [s|] eqn:Es; [|done]. simpl. f_equal. f_equal.
        destruct (wfn_col _ _ _ _ _ W Es) as (Hcs & _). by eapply Hvals.
    + rewrite (wrt_ostr _ _ _ W3), (grow_ostr _ _ _ _ G2). done.
  - intros d' [n' W'] Hd. fold l in Hd. 
    assert (Hmp : mp h3 (r_maps (d_raw d')) = mp h (r_maps (d_raw d'))).
    { rewrite (wrt_mp _ _ _ W3). by eapply grow_mp. }
    split.
    + exists n'. eapply wrt_wfn; [exact W3|]. split.
      * rewrite (g_len _ _ _ G2). apply W'.
      * intros x Hx. rewrite (g_str _ _ _ G2). by apply (wf_str _ _ _ W').
      * intros x Hx. rewrite (g_shr _ _ _ G2). by apply (wf_shr _ _ _ W').
      * intros k s Hk. rewrite (grow_mp _ _ _ _ G2) in Hk by done.
        destruct (wfn_col _ _ _ _ _ W' Hk) as (Hcs & Hln & _). split; [|done]. by eapply grow_col_ok.
      * apply W'.
      * apply W'.
      * apply W'.
      * destruct (wf_mask _ _ _ W') as [? ?]. split; [done|]. unfold marr. by rewrite (g_mask _ _ _ G2).
      * apply W'.
    + unfold abs. rewrite Hmp. f_equal.
      * apply map_eq. intros k. rewrite !lookup_fmap. destruct (_ !! k) as [s|] eqn:Es; [|done]. simpl. f_equal. f_equal.
        destruct (wfn_col _ _ _ _ _ W' Es) as (Hcs & _). by eapply Hvals.
      * rewrite (wrt_ostr _ _ _ W3), (grow_ostr _ _ _ _ G2). done.
Qed.

(** Without an object column of that name there is nothing to read. *)
Lemma forM_inv {A} (P : heap -> Prop) (f : A -> M unit) l : forall h h',
  (forall x h h', x ∈ l -> P h -> f x h = Ok (tt, h') -> P h') -> P h -> forM l f h = Ok (tt, h') -> P h'.
Proof.
  induction l as [|x l IH]; intros h h' Hf Hh E; [by injection E as <-|].
  cbn [forM] in E. apply bind_ok in E as ([] & h1 & E1 & E2). eapply (IH h1); [|by eapply Hf, E1; [left|]|done].
  intros y h3 h4 Hy. apply Hf. by right.
Qed.
Lemma hash_column_map d v c h h' l : hash_column d v c h = Ok (tt, h') -> mp h' l = mp h l.
Proof.
  unfold hash_column. intros (mi & h1 & [= <- <-] & (mo & h2 & [= <- <-] & E)%bind_ok)%bind_ok. cbv zeta in E.
  refine (forM_inv (fun x => mp x l = mp h l) _ _ h h' _ eq_refl E).
  intros i h1 h2 _ <- (w & h3 & E1 & E2)%bind_ok. unfold sl_rd in E1. destruct (_ !! i); [|done]. injection E1 as _ <-.
  unfold sl_wr in E2. case_decide; [|done]. by injection E2 as <-.
Qed.
Lemma hash_column_missing d v c h : inds d <> [] -> mp h (r_maps (d_raw d)) !! (KObj, c) = None -> hash_column d v c h = Panic.
Proof.
  intros Hi Hm. unfold hash_column. erewrite bind_eq by done. erewrite bind_eq by done. rewrite Hm. simpl.
  destruct (inds d) as [|i ix]; [done|]. cbn [forM]. unfold bind at 1. unfold bind at 1. unfold sl_rd.
  by rewrite sl_vals_len0 by done.
Qed.
Lemma hash_missing_panic h d cols c : wf h d -> c ∈ cols -> inds d <> [] ->
  mp h (r_maps (d_raw d)) !! (KObj, c) = None -> hash_strings_view d cols h = Panic.
Proof.
  intros W Hc Hi Hm. destruct (hash_strings_view d cols h) as [[v h']|] eqn:E; [|done]. exfalso.
  unfold hash_strings_view in E. rewrite decide_False in E by (by intros ->; apply elem_of_nil in Hc).
  set (P := fun x : heap => mp x (r_maps (d_raw d)) !! (KObj, c) = None).
  apply bind_ok in E as (m & h1 & [= <- <-] & (r & h1 & E1 & ([] & h2 & E2 & ([] & h3 & E3 & E4)%bind_ok)%bind_ok)%bind_ok).
  assert (P1 : P h1).
  { destruct (decide (elements (names (mp h (r_maps (d_raw d))) ∖ list_to_set cols) = [])) as [Ho|Ho].
    - rewrite Ho, column_view_nil in E1. by injection E1 as _ <-.
    - destruct (column_view_spec h d _ W Ho) as (v' & h1' & E1' & _ & _ & X & _). rewrite E1 in E1'. injection E1' as _ <-.
      unfold P. destruct W as [n W]. by rewrite (ext_mp _ _ _ X) by apply W. }
  assert (P2 : P h2).
  { refine (forM_inv P _ _ h1 h2 _ P1 E2). intros c' ha hb _ Pa (s & hc & Es & Ep)%bind_ok.
    assert (Pc : P hc).
    { unfold P. assert (mp hc (r_maps (d_raw d)) = mp ha (r_maps (d_raw d))) as ->; [|done].
      rewrite make_slice_lit in Es. unfold lit_slice in Es. apply bind_ok in Es as (a & hd & [= <- <-] & [_ <-]%ret_ok). done. }
    unfold put_col in Ep. apply bind_ok in Ep as (m' & hd & [= <- <-] & Ep). unfold put_mp in Ep. injection Ep as <-.
    unfold P in Pc |- *. unfold mp in Pc |- *. simpl. destruct (decide (r_maps (d_raw r) = r_maps (d_raw d))) as [->|Hne].
    - destruct (decide (r_maps (d_raw d) < length (h_map hc))) as [Hl|Hl].
      + rewrite list_lookup_insert by done. simpl. rewrite lookup_insert_ne by done. exact Pc.
      + rewrite list_insert_ge by lia. exact Pc.
    - by rewrite list_lookup_insert_ne by done. }
  clear E1 E2 E4 P1. revert h2 P2 E3. induction cols as [|c' cols IH]; intros h2 P2 E3; [by apply elem_of_nil in Hc|].
  cbn [forM] in E3. apply bind_ok in E3 as ([] & h4 & Ea & Eb).
  destruct (decide (c' = c)) as [->|Hcc]; [by rewrite hash_column_missing in Ea|].
  apply elem_of_cons in Hc as [->|Hc]; [done|]. apply (IH Hc h4); [|done].
  unfold P. by rewrite (hash_column_map _ _ _ _ _ _ Ea).
Qed.

Lemma C24_panics_main : forall (h : heap) (d : dframe) (cols : list string), wf h d -> cols <> [] ->
  hash_strings_view d cols h = Panic <->
  0 < t_rows (abs h d) /\ exists c, c ∈ cols /\ t_cols (abs h d) !! (KObj, c) = None.
Proof.
  intros h d cols W Hc. pose proof W as [n Wn].
  assert (Hlen : length (inds d) = num_rows d) by (by eapply wfn_inds_length).
  split.
  - intros E. destruct (decide (num_rows d = 0)) as [Hz|Hz].
    + exfalso. assert (Hi : inds d = []) by (apply nil_length_inv; lia).
      unfold hash_strings_view in E. rewrite decide_False in E by done. erewrite bind_eq in E by done.
      set (o := elements _) in E.
      assert (exists v h1, column_view d o h = Ok (v, h1)) as (v & h1 & E1).
      { destruct (decide (o = [])) as [->|Ho]; [eauto using column_view_nil|].
        destruct (column_view_spec h d _ W Ho) as (v' & h1' & E1' & _). eauto. }
      erewrite bind_eq in E by exact E1. cbv zeta in E. set (k := num_alloc_rows _) in E.
      assert (exists h2, forM cols (fun c => let* s := make_slice KInt k in put_col (r_maps (d_raw v)) (KInt, c) s) h1 = Ok (tt, h2)) as (h2 & E2).
      { clear E E1 Hc. revert h1. induction cols as [|c cols IH]; intros h1; [by eexists|]. cbn [forM].
        unfold bind at 1. erewrite bind_eq by (rewrite make_slice_lit; done).
        unfold put_col. erewrite bind_eq by done. unfold put_mp. apply IH. }
      erewrite bind_eq in E by exact E2.
      assert (E3 : forM cols (hash_column d v) h2 = Ok (tt, h2)).
      { clear E E1 E2 Hc. induction cols as [|c cols IH]; [done|]. cbn [forM].
        rewrite (bind_eq _ _ h2 tt h2); [done|]. unfold hash_column. erewrite bind_eq by done. erewrite bind_eq by done. by rewrite Hi. }
      by erewrite bind_eq in E by exact E3.
    + split; [simpl; lia|].
      destruct (decide (Exists (fun c => t_cols (abs h d) !! (KObj, c) = None) cols)) as [Hx|Hx]; [by apply Exists_exists in Hx|].
      exfalso. assert (Hobj : forall c, c ∈ cols -> is_Some (t_cols (abs h d) !! (KObj, c))).
      { intros c Hin. destruct (t_cols (abs h d) !! (KObj, c)) eqn:Ec; [by eexists|]. destruct Hx. apply Exists_exists. eauto. }
      destruct (decide (map_Forall (fun (k : key) (_ : list val) => k.2 ∈ cols) (t_cols (abs h d)))) as [Ha|Ha].
      * destruct (C24_all_columns_main h d cols W Hc Hobj) as (h' & E' & _); [|congruence].
        intros k [x Hk]. by apply (Ha k x).
      * apply map_not_Forall in Ha as (k & x & Hk & Hn); [|apply _].
        destruct (hash_strings_view_spec h d cols W Hc Hobj) as (v & h' & E' & _); [|congruence]. exists k. split; [by eexists|done].
  - intros [Hr (c & Hin & Hn)]. simpl in Hr. eapply hash_missing_panic; [done|exact Hin|intros Ei; rewrite Ei in Hlen; simpl in Hlen; lia|].
    rewrite abs_cols_lookup in Hn. by apply fmap_None in Hn.
Qed.
End frame.

Lemma C24_panic_case_main : wf c24_h c24_d /\ t_rows (abs c24_h c24_d) = 2 /\ t_cols (abs c24_h c24_d) !! (KObj, "x") = None /\
  (forall c, c ∈ ["s"] -> is_Some (t_cols (abs c24_h c24_d) !! (KObj, c))) /\
  t_cols (t_hash_onto ["s"] (abs c24_h c24_d)) !! (KObj, "s") = Some [VObj (OStr "x"); VObj ONil] /\
  t_cols (t_hash_onto ["s"] (abs c24_h c24_d)) !! (KInt, "s") = Some [spec_hash (VObj (OStr "x")); VInt (-1)].
Proof.
  split; [apply (wf_check_sound _ _ 2); by vm_compute|]. split; [done|]. split; [by vm_compute|].
  split; [intros c ->%elem_of_list_singleton; apply (bool_decide_unpack _); by vm_compute|]. split; by vm_compute.
Qed.
