(** Predict: the whole function. *)
From Verif Require Import P_PrepMain P_View3 P_Batch2.
From Verif Require Export P_LinReg.
From Verif Require Import P_Auto.

Lemma same_row h d k j1 j2 i : wf h d -> inds d !! j1 = Some i -> inds d !! j2 = Some i ->
  t_cell (abs h d) k j1 = t_cell (abs h d) k j2.
Proof. intros W H1 H2. rewrite !t_cell_abs by done. unfold cell_of. by rewrite H1, H2. Qed.
Lemma t_select_dom p t : dom (t_cols (t_select p t)) = dom (t_cols t).
Proof. unfold t_select. cbn. by rewrite dom_fmap_L. Qed.

Section predict.
Context {rt : GoRT} (bl : blas f64_arith) (order : gset string -> list string) (Ho : forall X, order X ≡ₚ elements X).

(** The batches of a dataframe with rows. *)
Lemma split_batches h d B cols ks : wf h d -> (0 < B)%Z -> 0 < num_rows d -> num_keys (abs h d) cols = Some ks ->
  exists b vs h1, split_view d B h = Ok (b :: vs, h1) /\ ext h h1 /\
    Forall (fun v => wf h1 v /\ num_keys (abs h1 v) cols = Some ks /\ 0 < num_rows v <= num_rows b) (b :: vs) /\
    t_concat (abs h1 <$> b :: vs) (abs h d) /\
    (forall i v, (b :: vs) !! i = Some v -> S i < length (b :: vs) -> Z.of_nat (num_rows v) = B) /\
    (forall v, last (b :: vs) = Some v -> 0 < num_rows v /\ (Z.of_nat (num_rows v) <= B)%Z).
Proof.
  intros W HB Hr Hk. pose proof (split_view_spec h d B W) as H. destruct (split_view d B h) as [[vs h1]|]; [|lia].
  destruct H as (_ & X & _ & Wv & TC & Hne & HS & HL). destruct vs as [|b vs]; [done|]. exists b, vs, h1. split; [done|]. split; [done|].
  split; [|split; [done|split; [done|]]]; [|intros v Hv; destruct (HL v Hv); split; [auto|done]].
  assert (Hb : forall i v, (b :: vs) !! i = Some v -> 0 < num_rows v /\ (Z.of_nat (num_rows v) <= B)%Z).
  { intros i v Hv. pose proof (lookup_lt_Some _ _ _ Hv) as Hi. destruct (decide (S i < length (b :: vs))) as [Hi'|Hi'].
    - specialize (HS i v Hv Hi'). lia.
    - assert (last (b :: vs) = Some v) as Hl. { rewrite last_lookup, <- Hv. f_equal. lia. } destruct (HL v Hl). split; [auto|done]. }
  apply Forall_lookup. intros i v Hv. rewrite Forall_lookup in Wv. split; [by apply (Wv i)|]. split.
  - destruct TC as (_ & TC & _). rewrite Forall_fmap, Forall_lookup in TC. destruct (TC i v Hv) as [E _]. by rewrite (num_keys_dom _ _ _ E).
  - destruct (Hb i v Hv). split; [done|]. destruct vs as [|x l].
    + destruct i; [|done]. by injection Hv as ->.
    + specialize (HS 0 b eq_refl ltac:(cbn [length]; lia)). lia.
Qed.
(** Without rows there is one batch. *)
Lemma split_first h d B : wf h d -> (0 < B)%Z -> exists b vs h1, split_view d B h = Ok (b :: vs, h1) /\ wf h1 b /\
  (num_rows d = 0 -> num_rows b = 0) /\ dom (t_cols (abs h1 b)) = dom (t_cols (abs h d)).
Proof.
  intros W HB. pose proof (split_view_spec h d B W) as H. destruct (split_view d B h) as [[vs h1]|]; [|lia].
  destruct H as (_ & X & _ & Wv & TC & Hne & HS & HL). destruct vs as [|b vs]; [done|]. exists b, vs, h1. split; [done|].
  apply Forall_cons in Wv as [Wb _]. split; [done|]. destruct TC as (T1 & T2 & _). split.
  - intros H0. change (t_rows (abs h d)) with (num_rows d) in T1.
    replace (sum_list (t_rows <$> (abs h1 <$> b :: vs))) with (num_rows b + sum_list (t_rows <$> (abs h1 <$> vs))) in T1 by done. lia.
  - rewrite fmap_cons in T2. by apply Forall_cons in T2 as [[? _] _].
Qed.

Lemma predict_spec h d reg a b result : wf h d ->
  lr_scaler reg = Some (Scaler (A:=f64_arith) {["_target" := a]} {["_target" := b]}) ->
  result <> "_target" -> t_cols (abs h d) !! (KFloat, "_target") = None ->
  let panics := num_keys (abs h d) (lr_features reg) = None \/ num_rows d = 0 \/
                lr_features reg = [] \/ length (lr_weights reg) <> length (lr_features reg) in
  match lr_predict bl order reg d result h with
  | Ok (v, h') => ~ panics /\ wf h' v /\ ext h h' /\ exists ks p,
      num_keys (abs h d) (lr_features reg) = Some ks /\ p ≡ₚ seq 0 (num_rows d) /\
      inds v = pick p (inds d) /\ Sorted le (inds v) /\
      abs h' v = t_insert (KFloat, result)
        (imap (fun j row => VFloat (Nat.iter (reps v j) (unscaled a b) (dot_t bl row (lr_weights reg))))
              (t_num_rows f64_of_val (t_select p (abs h d)) ks)) (t_select p (abs h d))
  | Panic => panics
  end.
Proof.
  intros W Hs Hres Hnt panics. unfold lr_predict. set (w := lr_weights reg) in *. set (fs := lr_features reg) in *.
  destruct (reset_index_view_spec h d W) as (p & Hp & Ap & Sp & Ip & W1). set (d1 := reset_index_view d) in *.
  assert (Hr1 : num_rows d1 = num_rows d).
  { change (num_rows d1) with (t_rows (abs h d1)). rewrite Ap. cbn. apply Permutation_length in Hp. by rewrite seq_length in Hp. }
  assert (Hk1 : num_keys (abs h d1) fs = num_keys (abs h d) fs) by (apply num_keys_dom; by rewrite Ap, t_select_dom).
  destruct (decide (w = [])) as [Ew|Ew].
  { unfold panic. destruct (decide (fs = [])) as [?|Hf]; [right; right; by left|]. right; right; right. rewrite Ew. by destruct fs. }
  set (B := (4194304 `quot` Z.of_nat (length w) `max` 32)%Z). assert (HB : (0 < B)%Z) by (unfold B; lia). cbv zeta.
  destruct (decide (num_keys (abs h d) fs = None \/ num_rows d = 0 \/ fs = [])) as [Hbad|Hgood].
  { destruct (split_first h d1 B W1 HB) as (x & vs & h1 & E & Wx & Hx0 & Hxd). rewrite (bind_eq _ _ _ _ _ E).
    assert (EP : dense_matrix (new_dense fs) x h1 = Panic).
    { pose proof (dense_first h1 x fs Wx) as D. rewrite (num_keys_dom _ _ _ Hxd), Hk1 in D.
      destruct (num_keys (abs h d) fs) as [ks|] eqn:Ek; [|done]. destruct Hbad as [?|Hbad]; [done|].
      rewrite decide_True in D; [done|]. destruct Hbad as [H0| ->]; [left; apply Hx0; lia|]. right. unfold num_keys in Ek. simpl in Ek. by injection Ek as <-. }
    unfold bind at 1. rewrite predict_loop_panic by done. unfold panics. tauto. }
  apply Decidable.not_or in Hgood as [G1 [G2 G3]%Decidable.not_or].
  destruct (num_keys (abs h d) fs) as [ks|] eqn:Ek; [|done]. clear G1.
  destruct (num_keys_spec _ _ _ Ek) as (Hks & _ & Fk).
  assert (Hlen : length ks = length fs) by (by rewrite <- Hks, fmap_length).
  assert (Hkn : ks <> []) by (intros ->; by destruct fs).
  destruct (split_batches h d1 B fs ks W1 HB ltac:(lia) Hk1) as (x & vs & h1 & E & X1 & FB & TC & HS & HL).
  rewrite (bind_eq _ _ _ _ _ E).
  destruct (decide (length fs = length w)) as [Hfw|Hfw].
  2:{ apply Forall_cons in FB as [(Wx & Kx & Rx) _]. unfold bind at 1. cbn [predict_loop].
      destruct (dense_step h1 x fs ks (num_rows x) (new_dense fs) Wx Kx ltac:(lia) Hkn ltac:(by left)) as (db' & E1 & Hc & _).
      rewrite (bind_eq _ _ _ _ _ E1). cbn [fst snd]. rewrite Hc. rewrite decide_False by tauto. unfold panic, panics. right; right; right. fold fs w. lia. }
  assert (Hsum : num_rows d1 = sum_list (num_rows <$> x :: vs)).
  { destruct TC as (T1 & _). etrans; [exact T1|]. by rewrite <- list_fmap_compose. }
  pose proof (predict_loop_spec bl h1 w B fs ks (num_rows x) Hfw Hkn HB (x :: vs) 0 (new_dense fs) [] FB HS) as EL.
  rewrite app_nil_l, <- Hsum in EL. specialize (EL ltac:(intros ? [= <-]; by left) ltac:(done)).
  rewrite (bind_eq _ _ _ _ _ EL). rewrite app_nil_l.
  replace (concat ((fun b => t_num_rows f64_of_val (abs h1 b) ks) <$> x :: vs)) with (t_num_rows f64_of_val (abs h d1) ks).
  2:{ rewrite <- (t_concat_num_rows f64_of_val ks (abs h1 <$> x :: vs) (abs h d1)); [by rewrite <- list_fmap_compose| |done|].
      - apply Forall_fmap. eapply Forall_impl; [exact FB|]. intros v (Wv & _). by apply abs_ok.
      - eapply Forall_impl; [exact Fk|]. intros k Hk. cbv beta in Hk |- *. by rewrite <- elem_of_dom, Ap, t_select_dom, elem_of_dom. }
  set (rows := t_num_rows f64_of_val (abs h d1) ks). set (pred := mul_vec (dot_t bl) rows w : list f64).
  assert (W1' : wf h1 d1) by (by eapply ext_wf). assert (A1' : abs h1 d1 = abs h d1) by (by apply ext_abs).
  assert (Hrow : forall j1 j2 i, inds d1 !! j1 = Some i -> inds d1 !! j2 = Some i -> pred !! j1 = pred !! j2).
  { intros j1 j2 i H1 H2. unfold pred, mul_vec. rewrite !list_lookup_fmap. unfold rows, t_num_rows. change (t_rows (abs h d1)) with (num_rows d1).
    pose proof W1 as [n1 Wn1]. pose proof (wfn_inds_length _ _ _ Wn1) as HLi.
    pose proof (lookup_lt_Some _ _ _ H1). pose proof (lookup_lt_Some _ _ _ H2).
    rewrite !list_lookup_fmap, !lookup_seq_lt by lia. cbn. do 2 f_equal. unfold t_num_row. apply list_fmap_ext. intros y k Hy.
    pose proof (same_row h d1 k j1 j2 i W1 H1 H2) as Hsr. unfold t_cell in Hsr. rewrite Forall_lookup in Fk.
    assert (Hin : is_Some (t_cols (abs h d1) !! k)). { rewrite <- elem_of_dom, Ap, t_select_dom, elem_of_dom. by apply (Fk y). }
    destruct Hin as [col Hcol]. rewrite Hcol in Hsr |- *. cbn in Hsr |- *. by rewrite Hsr. }
  assert (Hpl : length pred = num_rows d1). { etrans; [apply fmap_length|]. unfold rows, t_num_rows. by rewrite fmap_length, seq_length. }
  assert (Hcn : t_cols (abs h d1) !! (KFloat, "_target") = None). { apply not_elem_of_dom. rewrite Ap, t_select_dom. by apply not_elem_of_dom. }
  assert (Hce : t_cols (abs h d1) <> ∅).
  { intros H0. apply (f_equal dom) in H0. rewrite Ap, t_select_dom, dom_empty_L in H0. destruct ks as [|k ks]; [done|]. apply Forall_cons in Fk as [Fk _].
    apply elem_of_dom in Fk. rewrite H0 in Fk. by apply elem_of_empty in Fk. }
  destruct (overwrite_new h1 (view d1) "_target" pred) as (v & hv & EO & DT & OW & IV & AV).
  { by apply wf_view. } { done. } { by rewrite abs_view, A1'. } { by rewrite abs_view, A1'. } { done. } { exact Hrow. }
  rewrite (bind_eq _ _ _ _ _ EO). rewrite Hs. clear EO EL.
  rewrite abs_view, A1' in AV. change (d_ind (view d1)) with (d_ind d1) in IV.
  set (sc := Scaler _ _). set (isc := inverse_scaler sc).
  assert (Hsp : spec_cols isc = {["_target"]}).
  { unfold isc. rewrite C52_same_columns_main. unfold spec_cols, sc. cbn [sc_shift sc_scale]. destruct (decide _); by rewrite dom_singleton_L. }
  unfold scaler_inverse. fold isc.
  pose proof (update_detached h1 hv v {["_target"]} (scale_value isc) (order {["_target"]}) DT) as HU.
  assert (Hord : order {["_target"]} = ["_target"]). { pose proof (Ho {["_target"]}) as HP. rewrite elements_singleton in HP. by apply Permutation_singleton_r in HP. }
  rewrite Hord in HU. specialize (HU ltac:(apply NoDup_singleton) ltac:(set_solver)).
  assert (ET : scaler_transform order isc v hv = forM ["_target"] (fun c => update_column (scale_value isc c) v c) hv).
  { rewrite scaler_transform_eq by done. by rewrite Hsp, Hord. }
  destruct (forM ["_target"] _ hv) as [[[] h3]|] eqn:EU.
  2:{ exfalso. destruct HU as (c & ->%elem_of_list_singleton & Hc). rewrite AV in Hc. unfold t_insert in Hc. cbn in Hc. by rewrite lookup_insert in Hc. }
  rewrite (bind_eq _ _ _ _ _ ET). destruct HU as (DT3 & A3 & _). destruct DT3 as (X3 & W3 & _).
  replace (list_to_set ["_target"] : gset string) with ({["_target"]} : gset string) in A3 by set_solver.
  pose proof (rename_spec h3 v "_target" result W3 ltac:(done)) as HR.
  assert (Hrc : exists col, rename_col (abs h3 v) "_target" = Some (KFloat, col)).
  { unfold rename_col. rewrite A3, t_update_n_in, AV by set_solver. unfold t_insert. cbn [t_cols t_with_cols]. rewrite lookup_insert. by eexists. }
  destruct Hrc as [col Hrc]. destruct (rename (d_raw v) "_target" result h3) as [[r h4]|] eqn:ER; [|congruence].
  rewrite (bind_eq _ _ _ _ _ ER). destruct HR as (k & col' & Hrc' & W4 & A4 & _ & _ & C4 & P4 & M4 & _).
  rewrite Hrc in Hrc'. injection Hrc' as <- <-.
  destruct (own_ext h1 h3 h4 (d_raw v) r X3 OW C4 ltac:(apply P4; by intros [? _]) M4) as [X4 _].
  unfold ret. split; [unfold panics; intros [?|[?|[?|?]]]; [done|lia|done|lia]|].
  split; [done|]. split; [by eapply ext_trans|]. exists ks, p. split; [done|]. split; [done|].
  assert (Iv : inds (set_raw v r) = pick p (inds d)). { rewrite <- Ip. unfold inds. cbn [d_ind set_raw]. by rewrite IV. }
  split; [done|]. split; [by rewrite Iv|]. rewrite A4, A3, AV. rewrite <- Ap.
  assert (Hreps : reps (set_raw v r) = reps v) by (by apply reps_ind). rewrite Hreps.
  unfold t_insert, t_rename. cbn [t_rows t_cols t_strs t_enc t_cpu t_with_cols t_update_n].
  unfold t_with_cols at 1. f_equal.
  set (f := fun k col => _). apply map_eq. intros k.
  assert (Hlk : forall k, map_imap f (<[(KFloat, "_target") := VFloat <$> pred]> (t_cols (abs h d1))) !! k =
      if decide (k = (KFloat, "_target")) then Some (repeat_floats (reps v) (scale_value isc "_target") (VFloat <$> pred)) else t_cols (abs h d1) !! k).
  { intros k'. rewrite map_lookup_imap. destruct (decide (k' = _)) as [->|Hk'].
    - rewrite lookup_insert. cbn. unfold f. by rewrite decide_True by set_solver.
    - rewrite lookup_insert_ne by done. destruct (t_cols (abs h d1) !! k') as [cl|] eqn:Ec; [|done]. cbn. unfold f. rewrite decide_False; [done|].
      intros [H1 H2%elem_of_singleton]. apply Hk'. destruct k'. simpl in *. by subst. }
  rewrite Hlk, decide_True by done.
  destruct (decide (k = (KFloat, result))) as [->|Hk].
  - rewrite !lookup_insert. f_equal. unfold repeat_floats, pred, mul_vec. rewrite <- list_fmap_compose, imap_fmap. apply imap_ext. intros j row _.
    unfold compose. f_equal.
  - rewrite !lookup_insert_ne by done. destruct (decide (k = (KFloat, "_target"))) as [->|Hk'].
    + by rewrite lookup_delete, Hcn.
    + rewrite lookup_delete_ne by done. by rewrite Hlk, decide_False.
Qed.
End predict.
