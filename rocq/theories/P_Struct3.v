(** Drop, AllocStrings, IntToFloats, BoolToFloats. *)
From Verif Require Export P_Struct2.

Lemma to_float_num k vs : (k = KInt \/ k = KBool) -> Forall (fun v => kind_of v = k) vs ->
  to_float <$> vs = val_num <$> vs.
Proof.
  intros Hk Hv. induction Hv as [|v vs Hv Hvs IH]; [done|]. rewrite !fmap_cons, IH. f_equal.
  destruct v as [| | |[]]; simpl in *; try done; destruct Hk; congruence.
Qed.
Lemma to_float_kind vs : Forall (fun v => kind_of v = KFloat) (to_float <$> vs).
Proof. apply Forall_fmap, Forall_true. intros [| | |[]]; done. Qed.

(** What BoolToFloats does to a column: a float column is added, the bool column
    stays and an int column of the same name is removed. *)
Definition t_bool_float (c : string) (t : table) : table :=
  t_with_cols t (match t_cols t !! (KBool, c) with
                 | Some x => <[(KFloat, c) := val_num <$> x]> (delete (KInt, c) (t_cols t))
                 | None => t_cols t
                 end).

Section frame.
Context {rt : GoRT}.

Definition conv_body (l : nat) (src : kind) (c : string) : M unit :=
  let* m := get_mp l in
  let* vs := get_vals (default nil_slice (m !! (src, c))) in
  let* s := lit_slice (to_float <$> vs) in
  put_mp l (<[(KFloat, c) := s]> (delete (KInt, c) m)).

Lemma conv_body_spec h l src c : l < length (h_map h) ->
  let vs := to_float <$> sl_vals h (default nil_slice (mp h l !! (src, c))) in
  exists h' s, conv_body l src c h = Ok (tt, h') /\ grow l h h' /\ fresh_col h h' s vs /\
    mp h' l = <[(KFloat, c) := s]> (delete (KInt, c) (mp h l)).
Proof.
  intros Hl vs. eexists _, (Slice (length (h_arr h)) 0 (length vs) (length vs)).
  split; [reflexivity|]. split; [|split].
  - split; simpl; try done.
    + by eexists.
    + by rewrite insert_length.
    + intros l' Hl'. by rewrite list_lookup_insert_ne.
  - split; [simpl; rewrite app_length; simpl; lia|]. do 3 (split; [reflexivity|]).
    unfold arr. simpl. by rewrite lookup_app_r, Nat.sub_diag.
  - unfold mp. simpl. rewrite list_lookup_insert by done. done.
Qed.

(** One column converted, [src] being int or bool. *)
Definition t_conv (src : kind) (c : string) (t : table) : table :=
  match src with KBool => t_bool_float c t | _ => t_to_float src c t end.

Lemma conv_step h d n src c : wfn h d n -> src = KInt \/ src = KBool ->
  is_Some (t_cols (abs h d) !! (src, c)) ->
  exists h', conv_body (r_maps (d_raw d)) src c h = Ok (tt, h') /\ wfn h' d n /\
    abs h' d = t_conv src c (abs h d) /\ grow (r_maps (d_raw d)) h h' /\ stable h h'.
Proof.
  intros W Hsrc Hex. set (l := r_maps (d_raw d)).
  destruct (conv_body_spec h l src c) as (h' & s & E & G & F & Hm); [apply W|].
  rewrite abs_cols_lookup in Hex. fold l in Hex.
  destruct (mp h l !! (src, c)) as [s0|] eqn:E0; [|by destruct Hex].
  simpl in F. destruct (wf_cols _ _ _ W _ _ E0) as [Hc0 Hn0]. simpl in Hc0.
  assert (Hok : map_ok h' n (mp h' l)).
  { rewrite Hm. intros k' s' Hs'. destruct (decide (k' = (KFloat, c))) as [->|Hk].
    - rewrite lookup_insert in Hs'. injection Hs' as <-. split.
      + eapply fresh_col_ok; [done|]. apply to_float_kind.
      + destruct F as (_ & _ & F & _). by rewrite F, fmap_length, (col_ok_vals_length _ _ _ Hc0).
    - rewrite lookup_insert_ne in Hs' by done. apply lookup_delete_Some in Hs' as [_ Hs'].
      destruct (wf_cols _ _ _ W _ _ Hs'). split; [by eapply grow_col_ok|done]. }
  exists h'. split; [done|].
  assert (C : chg l h h') by (by apply grow_chg).
  split. { eapply chg_wfn; [exact C|done|]. done. }
  split.
  { assert (EA : abs h' d = t_with_cols (abs h d)
       (<[(KFloat, c) := val_num <$> pick (inds d) (sl_vals h s0)]> (delete (KInt, c) (t_cols (abs h d))))).
    { unfold abs, t_with_cols. simpl. rewrite (grow_ostr _ _ _ _ G). f_equal. fold l. rewrite Hm.
      rewrite fmap_insert, fmap_delete. rewrite (fresh_col_vals _ _ _ _ F), <- pick_fmap.
      rewrite (to_float_num src) by (done || by eapply col_ok_vals_kind). f_equal. f_equal.
      apply map_eq. intros k'. rewrite !lookup_fmap. destruct (mp h l !! k') as [s'|] eqn:Es; [|done].
      simpl. do 2 f_equal. eapply grow_sl_vals; [done|]. by apply (wf_cols _ _ _ W k'). }
    rewrite EA. destruct Hsrc as [-> | ->]; unfold t_conv, t_bool_float, t_to_float;
      rewrite abs_cols_lookup; fold l; rewrite E0; done. }
  split; [done|]. eapply chg_stable; [exact C|]. intros n' Hn'.
  destruct (Hn' _ _ E0) as [_ E1]. assert (n' = n) as -> by congruence. done.
Qed.

Lemma conv_loop src cols : src = KInt \/ src = KBool -> forall h d n, wfn h d n -> NoDup cols ->
  (forall c, c ∈ cols -> is_Some (t_cols (abs h d) !! (src, c))) ->
  exists h', forM cols (conv_body (r_maps (d_raw d)) src) h = Ok (tt, h') /\ wfn h' d n /\
    abs h' d = foldl (fun t c => t_conv src c t) (abs h d) cols /\
    grow (r_maps (d_raw d)) h h' /\ stable h h'.
Proof.
  intros Hsrc. induction cols as [|c cols IH]; intros h d n W Hnd Hex.
  { by exists h. }
  apply NoDup_cons in Hnd as [Hc Hnd].
  destruct (conv_step h d n src c W Hsrc) as (h1 & E1 & W1 & A1 & G1 & S1); [apply Hex; set_solver|].
  destruct (IH h1 d n W1 Hnd) as (h2 & E2 & W2 & A2 & G2 & S2).
  { intros c' Hc'. rewrite A1. assert (c <> c') by set_solver.
    assert (is_Some (t_cols (abs h d) !! (src, c'))) as Hx by (apply Hex; set_solver).
    destruct Hsrc as [-> | ->]; unfold t_conv, t_bool_float, t_to_float; simpl;
      destruct (_ !! (_, c)); try done; rewrite lookup_insert_ne by congruence;
      rewrite lookup_delete_ne by congruence; done. }
  exists h2. cbn [forM]. rewrite (bind_eq _ _ _ _ _ E1). split; [done|]. split; [done|].
  split; [by rewrite A2, A1|]. split; by etrans.
Qed.

Lemma conv_df src h d cols (f : raw -> list string -> M raw) :
  src = KInt \/ src = KBool ->
  (forall r cs hh, f r cs hh = (let* r := own_maps r in forM cs (conv_body (r_maps r) src) ;;* ret r) hh) ->
  wf h d -> NoDup cols -> (forall c, c ∈ cols -> is_Some (t_cols (abs h d) !! (src, c))) ->
  exists r' h', f (d_raw d) cols h = Ok (r', h') /\ wf h' (set_raw d r') /\
    abs h' (set_raw d r') = foldl (fun t c => t_conv src c t) (abs h d) cols /\ stable h h' /\
    (r_sharedMaps (d_raw d) = true -> ext h h') /\
    chg (r_maps r') h h' /\ h_str h `prefix_of` h_str h' /\
    r_maps r' = (if r_sharedMaps (d_raw d) then length (h_map h) else r_maps (d_raw d)) /\
    r_sharedMaps r' = false.
Proof.
  intros Hsrc Hf [n W] Hnd Hex. rewrite Hf.
  destruct (own_change h d n W) as (r1 & h1 & E1 & X1 & Ea & A1 & W1 & A2 & A3 & A4 & A5 & A6 & A7).
  rewrite (bind_eq _ _ _ _ _ E1).
  assert (Eabs : abs h1 (set_raw d r1) = abs h d).
  { unfold abs. simpl. rewrite A1, A2, A3, A4. rewrite (ext_ostr _ _ _ X1) by apply W. f_equal.
    apply map_eq. intros k. rewrite !lookup_fmap. destruct (_ !! k) as [s|] eqn:Es; [|done]. simpl.
    do 2 f_equal. eapply ext_sl_vals; [done|]. by apply (wf_cols _ _ _ W k). }
  destruct (conv_loop src cols Hsrc h1 (set_raw d r1) n W1 Hnd) as (h2 & E2 & W2 & B2 & G2 & S2).
  { by rewrite Eabs. }
  simpl in E2. rewrite (bind_eq _ _ _ _ _ E2). exists r1, h2. split; [done|]. split; [by exists n|].
  split; [by rewrite B2, Eabs|]. split.
  - etrans; [by apply ext_stable|done].
  - split; [intros Hs; eapply grow_ext; [exact X1|exact G2|]; simpl; by rewrite A6|].
    split; [eapply chg_trans; [by apply ext_chg|by apply grow_chg]|].
    split; [rewrite (g_str _ _ _ G2); apply X1|]. split; [|done].
    destruct (r_sharedMaps (d_raw d)); [by apply A6|by destruct (A7 eq_refl) as [-> _]].
Qed.

Lemma int_to_floats_spec h d cols : wf h d -> NoDup cols ->
  (forall c, c ∈ cols -> is_Some (t_cols (abs h d) !! (KInt, c))) ->
  exists r' h', int_to_floats (d_raw d) cols h = Ok (r', h') /\ wf h' (set_raw d r') /\
    abs h' (set_raw d r') = foldl (fun t c => t_to_float KInt c t) (abs h d) cols /\ stable h h' /\
    (r_sharedMaps (d_raw d) = true -> ext h h') /\
    chg (r_maps r') h h' /\ h_str h `prefix_of` h_str h' /\
    r_maps r' = (if r_sharedMaps (d_raw d) then length (h_map h) else r_maps (d_raw d)) /\
    r_sharedMaps r' = false.
Proof. apply (conv_df KInt); [by left|done]. Qed.
Lemma bool_to_floats_spec h d cols : wf h d -> NoDup cols ->
  (forall c, c ∈ cols -> is_Some (t_cols (abs h d) !! (KBool, c))) ->
  exists r' h', bool_to_floats (d_raw d) cols h = Ok (r', h') /\ wf h' (set_raw d r') /\
    abs h' (set_raw d r') = foldl (fun t c => t_bool_float c t) (abs h d) cols /\ stable h h' /\
    (r_sharedMaps (d_raw d) = true -> ext h h') /\
    chg (r_maps r') h h' /\ h_str h `prefix_of` h_str h' /\
    r_maps r' = (if r_sharedMaps (d_raw d) then length (h_map h) else r_maps (d_raw d)) /\
    r_sharedMaps r' = false.
Proof. apply (conv_df KBool); [by right|done]. Qed.

(** ** Drop *)
Definition drop1 (r : raw) (c : string) : M unit :=
  shr_remove (r_shared r) {[c]} ;;*
  str_remove (r_strs r) {[c]} ;;*
  let* m := get_mp (r_maps r) in
  put_mp (r_maps r)
      (delete (KInt, c) (delete (KBool, c) (delete (KFloat, c) (delete (KObj, c) m)))).
Lemma drop4 {A} (m : gmap key A) c k :
  delete (KInt, c) (delete (KBool, c) (delete (KFloat, c) (delete (KObj, c) m))) !! k =
  if decide (k.2 = c) then None else m !! k.
Proof.
  destruct k as [k c']. simpl. destruct (decide (c' = c)) as [->|Hc].
  - rewrite !lookup_delete_None. destruct k; auto 10.
  - rewrite !lookup_delete_ne by congruence. done.
Qed.

Lemma drop1_spec h d c n : wfn h d n -> exists h', drop1 (d_raw d) c h = Ok (tt, h') /\
  wfn h' d n /\ abs h' d = t_drop [c] (abs h d) /\ stable h h'.
Proof.
  intros W. unfold drop1.
  destruct (shr_remove_spec (r_shared (d_raw d)) {[c]} h) as (h1 & E1 & O1 & L1 & _).
  rewrite (bind_eq _ _ _ _ _ E1).
  destruct (str_remove_spec (r_strs (d_raw d)) {[c]} h1) as (h2 & E2 & O2 & V2 & S2).
  { intros l Hl. rewrite (os_str _ _ O1). by apply (wf_str _ _ _ W). }
  rewrite (bind_eq _ _ _ _ _ E2). set (l := r_maps (d_raw d)).
  rewrite (bind_eq _ _ h2 (mp h2 l) h2) by done.
  set (m := mp h l). assert (Em : mp h2 l = m).
  { unfold mp. by rewrite (ot_map _ _ O2), (os_map _ _ O1). }
  rewrite Em. eexists. split; [reflexivity|].
  set (m' := delete _ _). set (h3 := set_mp h2 l m').
  assert (L2 : l < length (h_map h2)).
  { rewrite (ot_map _ _ O2), (os_map _ _ O1). apply W. }
  assert (C : chg l h h3).
  { eapply chg_trans; [by apply only_shr_chg|]. eapply chg_trans; [by apply only_str_chg|by apply set_mp_chg]. }
  assert (M3 : mp h3 l = m') by (by apply mp_set_mp).
  assert (Hok : forall n', map_ok h n' m -> map_ok h3 n' m').
  { intros n' Hm k s Hk. unfold m' in Hk. rewrite drop4 in Hk. destruct (decide _); [done|].
    destruct (Hm k s Hk). split; [by eapply chg_col_ok|done]. }
  split. { eapply chg_wfn; [exact C|done|]. intros _. rewrite M3. apply Hok, W. }
  split.
  { unfold abs, t_drop. simpl. fold l m. rewrite M3.
    change (ostr h3 (r_strs (d_raw d))) with (ostr h2 (r_strs (d_raw d))). rewrite S2.
    replace (ostr h1 (r_strs (d_raw d))) with (ostr h (r_strs (d_raw d)));
      [|unfold ostr, str; by rewrite (os_str _ _ O1)].
    f_equal; [|set_solver]. apply map_eq. intros k. rewrite lookup_fmap. unfold m'. rewrite drop4.
    rewrite map_filter_lookup, lookup_fmap. destruct (m !! k) as [s|] eqn:Es.
    - simpl. destruct (decide (k.2 = c)) as [Hk|Hk].
      + simpl. rewrite option_guard_False; [done|]. simpl. set_solver.
      + simpl. rewrite option_guard_True by (simpl; set_solver). do 2 f_equal.
        eapply chg_sl_vals; [exact C|]. by apply (wf_cols _ _ _ W k).
    - simpl. by destruct (decide _). }
  eapply chg_stable; [exact C|]. intros n' Hn'. rewrite M3. by apply Hok.
Qed.

Lemma t_drop_cons c cols t : t_drop (c :: cols) t = t_drop cols (t_drop [c] t).
Proof.
  unfold t_drop. simpl. f_equal; [|set_solver].
  apply map_eq. intros k. rewrite !map_filter_lookup. destruct (t_cols t !! k) as [x|]; [|done].
  simpl. destruct (decide (k.2 = c)) as [Hk|Hk].
  - rewrite (option_guard_False (k.2 ∉ c :: cols)) by set_solver.
    rewrite (option_guard_False (k.2 ∉ [c])) by set_solver. done.
  - rewrite (option_guard_True (k.2 ∉ [c])) by set_solver. simpl.
    destruct (decide (k.2 ∈ cols)).
    + rewrite !option_guard_False by set_solver. done.
    + rewrite !option_guard_True by set_solver. done.
Qed.
Lemma t_drop_nil t : t_drop [] t = t.
Proof.
  unfold t_drop. destruct t. simpl. f_equal; [|set_solver].
  apply map_filter_id. intros; set_solver.
Qed.

Lemma drop_spec h d cols : wf h d -> exists h', drop_cols (d_raw d) cols h = Ok (tt, h') /\
  wf h' d /\ abs h' d = t_drop cols (abs h d) /\ stable h h'.
Proof.
  intros [n W]. change (drop_cols (d_raw d) cols) with (forM cols (drop1 (d_raw d))).
  revert h W. induction cols as [|c cols IH]; intros h W.
  { exists h. split; [done|]. split; [by exists n|]. split; [by rewrite t_drop_nil|done]. }
  destruct (drop1_spec h d c n W) as (h1 & E1 & W1 & A1 & S1).
  destruct (IH h1 W1) as (h2 & E2 & W2 & A2 & S2).
  exists h2. cbn [forM]. rewrite (bind_eq _ _ _ _ _ E1). split; [done|]. split; [done|].
  split; [by rewrite t_drop_cons, A2, A1|by etrans].
Qed.

(** ** AllocStrings *)
Lemma alloc_cols_eq k r cols h r1 h1 : cols <> [] -> own_maps r h = Ok (r1, h1) -> r_sharedMaps r1 = false ->
  alloc_cols k r cols h = alloc_cols k r1 cols h1.
Proof.
  intros Hne E Hs. unfold alloc_cols. rewrite bool_decide_eq_false_2 by done.
  rewrite (bind_eq _ _ _ _ _ E). rewrite (bind_eq (own_maps r1) _ h1 r1 h1); [done|].
  unfold own_maps. by rewrite Hs.
Qed.

Lemma alloc_strings_df h d cols : wf h d -> t_cols (abs h d) <> ∅ \/ num_rows d = 0 ->
  exists r' h', alloc_strings (d_raw d) cols h = Ok (r', h') /\
    wf h' (set_raw d r') /\
    abs h' (set_raw d r') = t_mark (list_to_set cols) (t_alloc KObj cols (abs h d)) /\
    (t_cols (abs h d) <> ∅ -> stable h h') /\
    (r_sharedMaps (d_raw d) = true -> r_strs (d_raw d) = None -> ext h h').
Proof.
  intros W Hne.
  destruct (alloc_cols_df h d KObj cols W Hne) as (r' & h' & E & W' & A & S & X & Q).
  assert (E' : (let* r := (if bool_decide (cols = []) then ret (d_raw d) else own_maps (d_raw d)) in
                alloc_cols KObj r cols) h = Ok (r', h')).
  { destruct (decide (cols = [])) as [->|Hc]; [done|]. rewrite bool_decide_eq_false_2 by done.
    destruct W as [n W]. destruct (own_change h d n W) as (r1 & h1 & E1 & _ & _ & _ & _ & _ & _ & _ & A5 & _).
    rewrite (bind_eq _ _ _ _ _ E1). by rewrite <- (alloc_cols_eq KObj (d_raw d) cols h). }
  assert (Ea : alloc_strings (d_raw d) cols h =
    (let* st := str_add (r_strs r') (list_to_set cols) in
     ret (Raw (r_maps r') (r_shared r') (r_sharedMaps r') (r_enc r') (r_cpu r') st)) h').
  { unfold alloc_strings. unfold bind in E' |- *. destruct ((if bool_decide (cols = []) then ret (d_raw d) else own_maps (d_raw d)) h) as [[r0 h0]|]; [|done].
    by rewrite E'. }
  destruct W' as [n W'].
  destruct (str_add_spec (r_strs r') (list_to_set cols) h') as (st & h2 & E2 & O2 & V2 & S2 & P2).
  { exact (wf_str _ _ _ W'). }
  rewrite Ea, (bind_eq _ _ _ _ _ E2). eexists _, h2. split; [reflexivity|].
  assert (C : chg (r_maps r') h' h2) by (by apply only_str_chg).
  assert (Em : mp h2 (r_maps r') = mp h' (r_maps r')) by (unfold mp; by rewrite (ot_map _ _ O2)).
  split.
  { exists n. apply (struct_wfn h' (set_raw d r') n _ h2 W'); simpl.
    - done.
    - rewrite (ot_map _ _ O2). apply (wf_map _ _ _ W').
    - done.
    - intros l Hl. rewrite (ot_shr _ _ O2). by apply (wf_shr _ _ _ W').
    - rewrite Em. eapply chg_map_ok; [exact C|]. apply (wf_cols _ _ _ W'). }
  split.
  { rewrite <- A. unfold abs, t_mark. simpl. rewrite S2, Em. f_equal.
    apply map_eq. intros k. rewrite !lookup_fmap. destruct (_ !! k) as [s|] eqn:Es; [|done]. simpl.
    do 2 f_equal. eapply chg_sl_vals; [exact C|]. by apply (wf_cols _ _ _ W' k). }
  split.
  { intros Hc. etrans; [by apply S|]. by apply only_str_stable. }
  intros Hs Hn. etrans; [by apply X|]. assert (h_str h' `prefix_of` h_str h2) by (apply P2; left; congruence).
  destruct O2. split; rewrite ?ot_arr, ?ot_map, ?ot_shr; try done.
  intros l. unfold marr. by rewrite ot_mask.
Qed.
End frame.
