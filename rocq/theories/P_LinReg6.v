(** Fit: the whole function. *)
From Verif Require Import P_PrepMain P_View2 P_UtilsMain P_Batch2 P_Detach.
From Verif Require Export P_LinReg5.
From Verif Require Import P_Auto4.

Lemma elem_concat {X} (x : X) (ls : list (list X)) : x ∈ concat ls <-> exists l, x ∈ l /\ l ∈ ls.
Proof. rewrite elem_of_list_In, in_concat. setoid_rewrite elem_of_list_In. naive_solver. Qed.
Lemma make_range_epochs (e : Z) : make_range 1 (e + 1) 1 =
  if decide (e < 0)%Z then Panic else Ok ((fun i => (1 + Z.of_nat i)%Z) <$> seq 0 (Z.to_nat e)).
Proof.
  destruct (decide (e < 0)%Z) as [H|H].
  - unfold make_range. rewrite decide_False by lia. cbv zeta. replace (e + 1 - 1)%Z with e by lia. rewrite Z.quot_1_r. by rewrite decide_True.
  - pose proof (C63_make_range_partial_main 1 1 (Z.to_nat e) ltac:(lia)) as E. replace (1 + Z.of_nat (Z.to_nat e) * 1)%Z with (e + 1)%Z in E by lia.
    rewrite E. f_equal. apply list_fmap_ext. intros. lia.
Qed.
Lemma target_scaler (sc : scaler f64_arith) opt t : fits opt t sc -> so_minmax opt = false -> so_centering opt = true -> so_scaling opt = true ->
  (forall c, is_Some (t_cols t !! (KFloat, c)) <-> c = "_target") ->
  exists a b, fit_col f64_arith opt (t_floats t "_target") = (Some a, Some b) /\ sc = Scaler (A:=f64_arith) {["_target" := a]} {["_target" := b]}.
Proof.
  intros HF H1 H2 H3 Hc.
  assert (E : exists a b, fit_col f64_arith opt (t_floats t "_target") = (Some a, Some b)).
  { unfold fit_col. rewrite H1, H2, H3. cbn. eauto. }
  destruct E as (a & b & E). exists a, b. split; [done|]. destruct sc as [s1 s2].
  assert (HL : forall c, s1 !! c = ({["_target" := a]} : gmap string f64) !! c /\ s2 !! c = ({["_target" := b]} : gmap string f64) !! c).
  { intros c. destruct (HF c) as [F1 F2]. cbn in F1, F2. unfold spec_fit in F1, F2. destruct (decide (is_Some _)) as [Hs|Hs].
    - apply Hc in Hs as ->. cbn in F1, F2. rewrite E in F1, F2. cbn in F1, F2. rewrite !lookup_singleton. by split.
    - cbn in F1, F2. rewrite !lookup_singleton_ne; [by split|..]; intros <-; apply Hs; by apply Hc. }
  f_equal; apply map_eq; intros c; apply HL.
Qed.

Section fit.
Context {rt : GoRT} (bl : blas f64_arith) (order : gset string -> list string) (Ho : forall X, order X ≡ₚ elements X).
Lemma fit_spec norm rnd h d target (p : lr_params f64_arith) : wf h d -> is_Some (t_cols (abs h d) !! (KFloat, target)) ->
  target <> "_target" -> t_cols (abs h d) !! (KFloat, "_target") = None -> t_cols (abs h d) !! (KBool, "_target") = None ->
  let t := abs h d in
  let panics := (forall c, ~ feature t target c) \/ (lp_batch p < 0)%Z \/ (lp_epochs p < 0)%Z \/
                (0 < lp_epochs p)%Z /\ (lp_batch p = 0%Z \/ num_rows d = 0) in
  match lr_fit bl order norm rnd d target p h with
  | Ok (reg, h') => ~ panics /\ ext h h' /\ exists a b ks epochs,
      fit_col f64_arith (ScalerOpt false true true) (t_floats t target) = (Some a, Some b) /\
      lr_scaler reg = Some (Scaler (A:=f64_arith) {["_target" := a]} {["_target" := b]}) /\
      NoDup (lr_features reg) /\ (forall c, c ∈ lr_features reg <-> feature t target c) /\
      num_keys t (lr_features reg) = Some ks /\
      length epochs = Z.to_nat (lp_epochs p) /\ Forall (batches_of (Z.to_nat (lp_batch p)) (num_rows d)) epochs /\
      lr_weights reg =
        (foldl (train_step (A:=f64_arith) (dot_t bl) (dot_n bl) (lp_lr p) (lp_momentum p) (lp_decay p))
               (init_weights (A:=f64_arith) norm (length (lr_features reg)), replicate (length (lr_features reg)) f64_zero)
               (part_data t ks (fun j => Nat.iter (reps d j) (scaled a b) (default f64_zero (t_floats t target !! j))) <$> concat epochs)).1
  | Panic => panics
  end.
Proof using rt Ho.
  intros W Ht Hne Hn1 Hn2 t panics. change (abs h d) with t in Ht, Hn1, Hn2. unfold lr_fit. rewrite (bind_eq _ _ h (mp h (r_maps (d_raw d))) h) by done. cbv zeta.
  set (m := mp h (r_maps (d_raw d))). set (fb := names_of KFloat m ∪ names_of KBool m). set (fs := order (fb ∖ {[target]})).
  assert (Hfb : forall c, c ∈ fb <-> is_Some (t_cols t !! (KFloat, c)) \/ is_Some (t_cols t !! (KBool, c))).
  { intros c. unfold fb, m. by rewrite elem_of_union, !names_kind. }
  destruct (order_nodup order fb (Ho _)) as (_ & _ & Hofb). destruct (order_nodup order (fb ∖ {[target]}) (Ho _)) as (Hnd & _ & Hfs). fold fs in Hnd, Hfs.
  assert (Hfeat : forall c, c ∈ fs <-> feature t target c).
  { intros c. rewrite Hfs, elem_of_difference, Hfb, elem_of_singleton. unfold feature. tauto. }
  assert (Hton : target ∈ order fb) by (apply Hofb, Hfb; by left).
  assert (Htn : "_target" ∉ order fb). { rewrite Hofb, Hfb. intros [[? H]|[? H]]; congruence. }
  destruct (column_view_spec h d (order fb) W) as (d1 & h1 & E1 & A1 & W1 & X1 & _ & _ & _ & _ & _ & I1 & _); [intros E; rewrite E in Hton; by apply elem_of_nil in Hton|].
  fold t in A1. rewrite (bind_eq _ _ _ _ _ E1). set (t1 := t_project (order fb) t) in *.
  assert (Hl1 : forall k c, t_cols t1 !! (k, c) = if decide (c ∈ order fb) then t_cols t !! (k, c) else None) by (intros k c; apply project_lookup).
  assert (Ht1 : is_Some (t_cols (abs h1 d1) !! (KFloat, target))) by (rewrite A1, Hl1, decide_True by done; done).
  destruct (detach_prep h1 d1 [target] {[target]} W1) as (d2 & h2 & E2 & P2). { right. set_solver. } { by intros c ->%elem_of_singleton. }
  rewrite (bind_eq _ _ _ _ _ E2).
  destruct (rename_detached h1 d1 d2 h2 target "_target" W1 Hne Ht1 E2 P2) as (r & h3 & E3 & P3). rewrite (bind_eq _ _ _ _ _ E3).
  set (d3 := set_raw d2 r) in *. rewrite A1 in P3. set (t3 := t_rename KFloat target "_target" t1) in *.
  destruct Ht as [col Hcol].
  assert (Hl3 : forall k, t_cols t3 !! k = if decide (k = (KFloat, "_target")) then Some col else if decide (k = (KFloat, target)) then None else t_cols t1 !! k).
  { intros k. unfold t3, t_rename. cbn [t_cols]. rewrite Hl1, decide_True by done. fold t in Hcol. rewrite Hcol. destruct (decide (k = (KFloat, "_target"))) as [->|Hk]; [apply lookup_insert|].
    rewrite lookup_insert_ne by done. destruct (decide (k = (KFloat, target))) as [->|Hk2]; [apply lookup_delete|by rewrite lookup_delete_ne]. }
  pose proof P3 as ((X3 & W3 & _) & I3 & A3).
  destruct (column_view_spec h3 d3 ["_target"] W3 ltac:(done)) as (td & h4 & E4 & A4 & W4 & X4 & _). rewrite (bind_eq _ _ _ _ _ E4).
  rewrite A3 in A4.
  destruct (C50_fit_main order (ScalerOpt false true true) h4 td W4 Ho) as (sc & E5 & F5 & _). rewrite (bind_eq _ _ _ _ _ E5). rewrite A4 in F5.
  assert (Hl4 : forall k c, t_cols (t_project ["_target"] t3) !! (k, c) = if decide (c = "_target") then t_cols t3 !! (k, c) else None).
  { intros k c. etrans; [apply project_lookup|]. apply decide_ext. set_solver. }
  destruct (target_scaler sc _ _ F5 ltac:(done) ltac:(done) ltac:(done)) as (a & b & Hab & ->).
  { intros c. rewrite Hl4. destruct (decide (c = "_target")) as [->|Hc]; [|split; [by intros []|done]]. rewrite Hl3, decide_True by done. split; [done|by eexists]. }
  assert (Hfl : t_floats (t_project ["_target"] t3) "_target" = t_floats t target).
  { unfold t_floats. rewrite Hl4, decide_True, Hl3, decide_True by done. fold t in Hcol. by rewrite Hcol. }
  rewrite Hfl in Hab.
  set (sc := Scaler _ _).
  destruct (scale_prep order Ho sc h1 d1 t3 h4 d3 {["_target"]}) as (h5 & E6 & P6).
  { by apply (in_prep_ext _ _ _ _ h3). } { unfold spec_cols, sc. cbn [sc_shift sc_scale]. destruct (decide _); by rewrite dom_singleton_L. }
  { intros c ->%elem_of_singleton. rewrite Hl3, decide_True by done. by eexists. }
  rewrite (bind_eq _ _ _ _ _ E6). destruct P6 as ((X6 & W6 & _) & I6 & A6).
  assert (XX : ext h h5) by (by eapply ext_trans).
  assert (Hrows : num_rows d3 = num_rows d).
  { change (num_rows d3) with (t_rows (abs h3 d3)). rewrite A3. done. }
  assert (Hreps : reps d1 = reps d) by (by apply reps_ind). rewrite Hreps in A6.
  set (T := t_update_n (reps d) {["_target"]} (scale_with sc) t3) in *.
  destruct (decide (fs = [] \/ (lp_batch p < 0)%Z)) as [Hbad|Hgood].
  { unfold panic, panics. destruct Hbad as [Hbad|Hbad]; [left|by right; left]. intros c Hc. apply Hfeat in Hc. rewrite Hbad in Hc. by apply elem_of_nil in Hc. }
  apply Decidable.not_or in Hgood as [Hf Hb].
  unfold lift. rewrite make_range_epochs. destruct (decide (lp_epochs p < 0)%Z) as [He|He].
  { unfold bind, panic, panics. right; right; by left. }
  set (es := (fun i => (1 + Z.of_nat i)%Z) <$> seq 0 (Z.to_nat (lp_epochs p))).
  rewrite (bind_eq _ _ h5 es h5) by done.
  assert (Hnf : ~ forall c, ~ feature t target c).
  { destruct fs as [|c l]; [done|]. intros H. apply (H c). apply Hfeat. left. }
  assert (HkT : num_keys T fs = num_keys t fs).
  { apply num_keys_same. intros c k Hc. unfold T. rewrite t_update_n_dom, Hl3.
    assert (c ∈ order fb /\ c <> target). { rewrite Hfs in Hc. rewrite Hofb. set_solver. }
    rewrite decide_False, decide_False, Hl1, decide_True; [done|..]; naive_solver. }
  assert (Hsome : exists ks, num_keys t fs = Some ks).
  { apply mapM_is_Some_2. apply Forall_forall. intros c Hc. apply Hfeat in Hc as [_ Hc]. cbv beta. unfold num_key. clear - Hc.
    unfold compose. repeat case_decide; try done; tauto. }
  destruct Hsome as [ks Hks]. destruct (num_keys_spec _ _ _ Hks) as (Hkc & _ & Fk).
  assert (Hkn : ks <> []). { intros ->. by rewrite <- Hkc in Hf. }
  set (w0 := init_weights (A:=f64_arith) norm (length fs)). set (st0 := (w0, replicate (length fs) f64_zero) : list f64 * list f64).
  assert (Hst : length st0.2 = length st0.1). { unfold st0. cbn [fst snd]. rewrite replicate_length. unfold w0, init_weights. by rewrite fmap_length, seq_length. }
  assert (HT : exists col', t_cols T !! (KFloat, "_target") = Some col' /\ col' = repeat_floats (reps d) (scale_with sc "_target") col).
  { unfold T. rewrite t_update_n_in by set_solver. rewrite Hl3, decide_True by done. by eexists. }
  destruct HT as (col' & HT & Hcol').
  assert (Hdata : forall q, Forall (fun j => j < num_rows d) q ->
     part_data T ks (fun j => default f64_zero (t_floats T "_target" !! j)) q =
     part_data t ks (fun j => Nat.iter (reps d j) (scaled a b) (default f64_zero (t_floats t target !! j))) q).
  { intros q Hq. unfold part_data. f_equal.
    - apply list_fmap_ext. intros _ j _. unfold t_num_row. apply list_fmap_ext. intros i k Hk. do 2 f_equal.
      assert (Hk2 : k.2 ∈ fs). { rewrite <- Hkc. apply elem_of_list_fmap. exists k. split; [done|]. by eapply elem_of_list_lookup_2. }
      assert (Hkt : k.2 <> target /\ k.2 <> "_target" /\ k.2 ∈ order fb).
      { rewrite Hfs in Hk2. rewrite elem_of_difference, elem_of_singleton, <- Hofb in Hk2. destruct Hk2. split; [done|]. split; [|done]. congruence. }
      destruct Hkt as (K1 & K2 & K3). f_equal. unfold T, t_update_n. cbn [t_cols t_with_cols]. rewrite map_lookup_imap, Hl3.
      destruct k as [kk c]. cbn [fst snd] in *. rewrite decide_False, decide_False, Hl1, decide_True by (done || congruence).
      destruct (t_cols t !! (kk, c)); [|done]. cbn. rewrite decide_False by set_solver. done.
    - apply list_fmap_ext. intros i j Hj. rewrite Forall_lookup in Hq. specialize (Hq _ _ Hj).
      unfold t_floats at 1. rewrite HT, Hcol'. cbn. rewrite list_lookup_fmap. unfold repeat_floats. rewrite list_lookup_imap.
      unfold t_floats. fold t in Hcol. rewrite Hcol. cbn. rewrite list_lookup_fmap.
      destruct (abs_ok _ _ W _ _ Hcol) as [Hlen _]. change (t_rows (abs h d)) with (num_rows d) in Hlen.
      destruct (lookup_lt_is_Some_2 col j ltac:(lia)) as [v Hv]. rewrite Hv. cbn.
      assert (Hg : forall x, scale_with sc "_target" x = scaled a b x).
      { intros x. unfold scale_with, scaled, sc. cbn [sc_shift sc_scale]. by rewrite !lookup_singleton. }
      induction (reps d j) as [|n IH]; [done|]. cbn [Nat.iter]. change (scale_with sc "_target" (Nat.iter n (scale_with sc "_target") (the_float v)) = scaled a b (Nat.iter n (scaled a b) (the_float v))).
      by rewrite Hg, IH. }
  assert (Fin : forall epochs h6, epoch_loop bl p d3 (rnd <$> es) (new_dense fs) st0 h5 =
       Ok (foldl (train_step (A:=f64_arith) (dot_t bl) (dot_n bl) (lp_lr p) (lp_momentum p) (lp_decay p)) st0
              (part_data T ks (fun j => default f64_zero (t_floats T "_target" !! j)) <$> concat epochs), h6) -> ext h5 h6 ->
       length epochs = length (rnd <$> es) -> Forall (batches_of (Z.to_nat (lp_batch p)) (num_rows d)) epochs -> ~ panics ->
       match (let* st := epoch_loop bl p d3 (rnd <$> es) (new_dense fs) st0 in ret (LinReg (Some sc) st.1 fs)) h5 with
       | Ok (reg, h') => ~ panics /\ ext h h' /\ exists a b ks epochs,
          fit_col f64_arith (ScalerOpt false true true) (t_floats t target) = (Some a, Some b) /\
          lr_scaler reg = Some (Scaler (A:=f64_arith) {["_target" := a]} {["_target" := b]}) /\
          NoDup (lr_features reg) /\ (forall c, c ∈ lr_features reg <-> feature t target c) /\
          num_keys t (lr_features reg) = Some ks /\
          length epochs = Z.to_nat (lp_epochs p) /\ Forall (batches_of (Z.to_nat (lp_batch p)) (num_rows d)) epochs /\
          lr_weights reg =
            (foldl (train_step (A:=f64_arith) (dot_t bl) (dot_n bl) (lp_lr p) (lp_momentum p) (lp_decay p))
                   (init_weights (A:=f64_arith) norm (length (lr_features reg)), replicate (length (lr_features reg)) f64_zero)
                   (part_data t ks (fun j => Nat.iter (reps d j) (scaled a b) (default f64_zero (t_floats t target !! j))) <$> concat epochs)).1
       | Panic => panics end).
  { intros epochs h6 EE X7 Hlen HB Hnp. rewrite (bind_eq _ _ _ _ _ EE). unfold ret. split; [done|]. split; [by eapply ext_trans|].
    exists a, b, ks, epochs. cbn [lr_scaler lr_features lr_weights]. do 5 (split; [done|]).
    split; [rewrite Hlen; unfold es; by rewrite !fmap_length, seq_length|]. split; [done|]. f_equal.
    replace (part_data T ks (fun j => default f64_zero (t_floats T "_target" !! j)) <$> concat epochs)
      with (part_data t ks (fun j => Nat.iter (reps d j) (scaled a b) (default f64_zero (t_floats t target !! j))) <$> concat epochs); [done|].
    apply list_fmap_ext. intros i q Hq. symmetry. apply Hdata. apply elem_of_list_lookup_2, elem_concat in Hq as (parts & Hq & Hparts).
    rewrite Forall_forall in HB. destruct (HB _ Hparts) as (HP & _). apply Forall_forall. intros j Hj.
    assert (Hj' : j ∈ concat parts) by (apply elem_concat; by exists q). rewrite HP in Hj'. apply elem_of_seq in Hj'. lia. }
  destruct (decide (lp_epochs p = 0)%Z) as [He0|He0].
  { apply (Fin [] h5); [|apply ext_refl| |by constructor|unfold panics; naive_solver lia].
    - unfold es. by rewrite He0.
    - unfold es. by rewrite He0. }
  destruct (decide (lp_batch p = 0%Z \/ num_rows d = 0)) as [Hz|Hz].
  { assert (EP : epoch_loop bl p d3 (rnd <$> es) (new_dense fs) st0 h5 = Panic).
    { unfold es. destruct (Z.to_nat (lp_epochs p)) as [|n] eqn:En; [lia|]. cbn [seq fmap list_fmap]. apply epoch_loop_panic; [done|]. lia. }
    unfold bind. rewrite EP. unfold panics. right; right; right. lia. }
  destruct (epoch_loop_spec bl p d3 fs ks T Hkn ltac:(lia) ltac:(lia) ltac:(congruence) ltac:(by eexists) (rnd <$> es) h5 (new_dense fs) st0 W6 A6 Hst ltac:(by left))
    as (epochs & h6 & EE & X7 & Hlen & HB).
  rewrite Hrows in HB. apply (Fin epochs h6); [done|done|done|done|unfold panics; naive_solver lia].
Qed.
(** Without the target column Fit panics. *)
Lemma fit_no_target norm rnd h d target (p : lr_params f64_arith) : wf h d ->
  t_cols (abs h d) !! (KFloat, target) = None -> t_cols (abs h d) !! (KBool, target) = None ->
  (exists c, is_Some (t_cols (abs h d) !! (KFloat, c)) \/ is_Some (t_cols (abs h d) !! (KBool, c))) ->
  target <> "_target" ->
  lr_fit bl order norm rnd d target p h = Panic.
Proof using rt Ho.
  intros W H1 H2 [c0 Hc0] Hne. unfold lr_fit. rewrite (bind_eq _ _ h (mp h (r_maps (d_raw d))) h) by done. cbv zeta.
  set (fb := names_of KFloat _ ∪ names_of KBool _).
  assert (Hfb : forall c, c ∈ fb <-> is_Some (t_cols (abs h d) !! (KFloat, c)) \/ is_Some (t_cols (abs h d) !! (KBool, c))).
  { intros c. unfold fb. by rewrite elem_of_union, !names_kind. }
  destruct (order_nodup order fb (Ho _)) as (_ & _ & Hofb).
  destruct (column_view_spec h d (order fb) W) as (d1 & h1 & E1 & A1 & W1 & X1 & _).
  { intros E. apply Hfb, Hofb in Hc0. rewrite E in Hc0. by apply elem_of_nil in Hc0. }
  rewrite (bind_eq _ _ _ _ _ E1).
  destruct (detached_view_spec h1 d1 [target] W1) as (d2 & h2 & E2 & _ & W2 & A2 & _). rewrite (bind_eq _ _ _ _ _ E2).
  pose proof (rename_spec h2 d2 target "_target" W2 Hne) as HR. unfold bind at 1. destruct (rename (d_raw d2) target "_target" h2) as [[r h3]|]; [|done].
  exfalso. destruct HR as (k & col & HR & _). unfold rename_col in HR.
  assert (HN : forall k, t_cols (abs h2 d2) !! (k, target) = None).
  { intros k'. rewrite A2, A1. etrans; [apply project_lookup|]. rewrite decide_False; [done|]. rewrite Hofb, Hfb, H1, H2. intros [[]|[]]; congruence. }
  by rewrite !HN in HR.
Qed.
End fit.
