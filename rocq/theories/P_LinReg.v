(** Predict. *)
From Verif Require Import P_PrepMain P_View3 P_Batch2.
From Verif Require Export M_LinReg Spec_LinReg P_Auto3 P_Priv.
From Verif Require Import P_Auto.

Section dense.
Context {rt : GoRT}.
Lemma dense_matrix_cols db d h rows db' h' : dense_matrix db d h = Ok ((rows, db'), h') -> db_cols db' = db_cols db.
Proof.
  unfold dense_matrix. intros H. apply bind_inv in H as (b & h1 & _ & H).
  apply bind_inv in H as (b1 & h2 & _ & H). apply bind_inv in H as (b2 & h3 & _ & H). apply bind_inv in H as (b3 & h4 & _ & H).
  destruct (decide _) in H; [done|]. unfold ret in H. by injection H as _ <- _.
Qed.
(** One more call, [n0] being the number of rows of the first one. *)
Definition dense_at (cols : list string) (ks : list key) (n0 : nat) (db : dense) (n : nat) : Prop :=
  (db = new_dense cols /\ n = n0) \/ (dense_ok db ks /\ n0 * length ks <= db_len db /\ n <= n0 /\ db_cols db = cols).
Lemma dense_step h d cols ks n0 db : wf h d -> num_keys (abs h d) cols = Some ks -> 0 < num_rows d -> ks <> [] ->
  dense_at cols ks n0 db (num_rows d) ->
  exists db', dense_matrix db d h = Ok ((t_num_rows f64_of_val (abs h d) ks, db'), h) /\ db_cols db' = cols /\
    forall n, n <= n0 -> dense_at cols ks n0 db' n.
Proof.
  intros W Hk Hr Hne HD. assert (0 < length ks) by (destruct ks; [done|simpl; lia]).
  destruct (num_keys_spec _ _ _ Hk) as (_ & _ & Fk).
  destruct HD as [[-> <-]|(D & Hl & Hle & Hc)].
  - pose proof (dense_first h d cols W) as H1. rewrite Hk, decide_False in H1 by lia. destruct H1 as (db' & E & D' & L').
    exists db'. split; [done|]. pose proof (dense_matrix_cols _ _ _ _ _ _ E) as Hc. split; [done|]. intros n Hn. right.
    split; [done|]. split; [lia|]. done.
  - pose proof (dense_later h d db ks W D Fk) as H1. rewrite decide_False in H1 by lia.
    destruct H1 as (db' & E & D' & L'); [unfold len_after; nia|].
    exists db'. split; [done|]. pose proof (dense_matrix_cols _ _ _ _ _ _ E) as Hc'. split; [congruence|]. intros n Hn. right.
    split; [done|]. split; [unfold len_after in L'; lia|]. split; [done|congruence].
Qed.
End dense.

(** Rows of tables one after the other. *)
Lemma num_key_dom t t' c : dom (t_cols t) = dom (t_cols t') -> num_key t c = num_key t' c.
Proof.
  intros E. assert (H : forall k, is_Some (t_cols t !! k) <-> is_Some (t_cols t' !! k)) by (intros k; by rewrite <- !elem_of_dom, E).
  unfold num_key. by rewrite !(decide_ext _ _ _ _ (H _)).
Qed.
Lemma num_keys_dom t t' cols : dom (t_cols t) = dom (t_cols t') -> num_keys t cols = num_keys t' cols.
Proof.
  intros E. unfold num_keys. induction cols as [|c cols IH]; [done|]. cbn. by rewrite (num_key_dom t t' c E), IH.
Qed.
Lemma num_rows_concat f ks parts :
  Forall (fun p => Forall (fun k => length (default [] (t_cols p !! k)) = t_rows p) ks) parts ->
  concat ((fun p => t_num_rows f p ks) <$> parts) =
  (fun j => (fun k => f (default (VInt 0) (concat ((fun p => default [] (t_cols p !! k)) <$> parts) !! j))) <$> ks)
    <$> seq 0 (sum_list (t_rows <$> parts)).
Proof.
  induction parts as [|p parts IH]; intros F; [done|]. apply Forall_cons in F as [Fp F].
  replace (sum_list (t_rows <$> p :: parts)) with (t_rows p + sum_list (t_rows <$> parts)) by done.
  cbn [fmap list_fmap concat]. rewrite (IH F), seq_app, fmap_app. f_equal.
  - unfold t_num_rows. apply list_fmap_ext. intros i j [-> Hj]%lookup_seq. unfold t_num_row. apply list_fmap_ext. intros y k Hk.
    rewrite lookup_app_l; [done|]. rewrite Forall_lookup in Fp. rewrite (Fp _ _ Hk). lia.
  - rewrite Nat.add_0_l. rewrite <- (Nat.add_0_r (t_rows p)) at 1. rewrite <- fmap_add_seq, <- list_fmap_compose.
    apply list_fmap_ext. intros i j _. unfold compose. apply list_fmap_ext. intros y k Hk.
    rewrite lookup_app_r by (rewrite Forall_lookup in Fp; rewrite (Fp _ _ Hk); lia).
    rewrite Forall_lookup in Fp. rewrite (Fp _ _ Hk). by replace (t_rows p + j - t_rows p) with j by lia.
Qed.
Lemma t_concat_num_rows f ks parts t : Forall t_ok parts -> t_concat parts t -> Forall (fun k => is_Some (t_cols t !! k)) ks ->
  concat ((fun p => t_num_rows f p ks) <$> parts) = t_num_rows f t ks.
Proof.
  intros Hok (H1 & H2 & H3) Fk. rewrite num_rows_concat.
  - rewrite <- H1. unfold t_num_rows. apply list_fmap_ext. intros i j [-> Hj]%lookup_seq. unfold t_num_row.
    apply list_fmap_ext. intros y k Hk. rewrite Forall_lookup in Fk. destruct (Fk _ _ Hk) as [col Hc]. rewrite (H3 k col Hc), Hc. done.
  - rewrite Forall_lookup in Hok, H2 |- *. intros i p Hp. apply Forall_forall. intros k Hk. rewrite Forall_forall in Fk.
    assert (Hs : is_Some (t_cols p !! k)). { destruct (H2 _ _ Hp) as [E _]. apply elem_of_dom. rewrite E. apply elem_of_dom. by apply Fk. }
    destruct Hs as [col Hc]. rewrite Hc. simpl. by apply (Hok _ _ Hp) in Hc as [-> _].
Qed.

Section predict.
Context {rt : GoRT} (bl : blas f64_arith) (order : gset string -> list string) (Ho : forall X, order X ≡ₚ elements X).

Lemma predict_loop_spec h w B cols ks n0 : length cols = length w -> ks <> [] -> (0 < B)%Z ->
  forall batches i db old,
  Forall (fun b => wf h b /\ num_keys (abs h b) cols = Some ks /\ 0 < num_rows b <= n0) batches ->
  (forall j b, batches !! j = Some b -> S j < length batches -> Z.of_nat (num_rows b) = B) ->
  (forall b, head batches = Some b -> dense_at cols ks n0 db (num_rows b)) ->
  (batches <> [] -> Z.of_nat (length old) = Z.of_nat i * B)%Z ->
  predict_loop bl w B i batches db (old ++ replicate (sum_list (num_rows <$> batches)) f64_zero) h =
  Ok (old ++ mul_vec (dot_t bl) (concat ((fun b => t_num_rows f64_of_val (abs h b) ks) <$> batches)) w, h).
Proof.
  intros Hw Hne HB. induction batches as [|b batches IH]; intros i db old F HS HD Hold.
  { cbn. by rewrite !app_nil_r. }
  apply Forall_cons in F as [(W & Hk & Hr) F]. cbn [predict_loop].
  destruct (dense_step h b cols ks n0 db W Hk ltac:(lia) Hne (HD b eq_refl)) as (db' & E & Hc & HD').
  rewrite (bind_eq _ _ _ _ _ E). cbn [fst snd]. rewrite Hc. specialize (Hold ltac:(done)).
  assert (HL : length (t_num_rows f64_of_val (abs h b) ks) = num_rows b) by (unfold t_num_rows; by rewrite fmap_length, seq_length).
  replace (sum_list (num_rows <$> b :: batches)) with (num_rows b + sum_list (num_rows <$> batches)) by done.
  rewrite replicate_add. rewrite decide_True by (rewrite !app_length, !replicate_length; split; [lia|done]).
  replace (Z.to_nat (Z.of_nat i * B)) with (length old) by lia.
  rewrite take_app, <- drop_drop, drop_app. rewrite <- (replicate_length (num_rows b) f64_zero) at 1. rewrite drop_app.
  rewrite app_assoc. rewrite IH; [|done| | |].
  - f_equal. f_equal. cbn [fmap list_fmap concat]. unfold mul_vec. by rewrite fmap_app, app_assoc.
  - intros j b' Hb Hj. apply (HS (S j)); [done|simpl; lia].
  - intros b' Hb'. apply HD'. destruct batches as [|x l]; [done|]. injection Hb' as ->. apply Forall_cons in F as [(_ & _ & ?) _]. lia.
  - intros Hn. destruct batches as [|x l]; [done|]. rewrite app_length.
    assert (HL2 : length (mul_vec (dot_t bl) (t_num_rows f64_of_val (abs h b) ks) w) = num_rows b) by (etrans; [apply fmap_length|exact HL]).
    rewrite HL2.
    assert (H0 : 1 < length (b :: x :: l)) by (cbn [length]; lia). specialize (HS 0 b eq_refl H0).
    rewrite Nat2Z.inj_succ, Z.mul_succ_l, <- Hold. rewrite <- HS at 1. by rewrite Nat2Z.inj_add.
Qed.
(** A dataframe without the columns, or without rows. *)
Lemma predict_loop_panic h w B i b batches db pred : dense_matrix db b h = Panic -> predict_loop bl w B i (b :: batches) db pred h = Panic.
Proof. intros E. cbn [predict_loop]. unfold bind. by rewrite E. Qed.

(** Writing a new float column, values of rows with the same position being the
    same. *)
Lemma overwrite_new h d c (vs : list f64) : wf h d -> r_sharedMaps (d_raw d) = true -> t_cols (abs h d) <> ∅ ->
  t_cols (abs h d) !! (KFloat, c) = None -> length vs = num_rows d ->
  (forall j1 j2 i, inds d !! j1 = Some i -> inds d !! j2 = Some i -> vs !! j1 = vs !! j2) ->
  exists v hv, overwrite KFloat false d c (VFloat <$> vs) h = Ok (v, hv) /\ detached h hv v {[c]} /\ own h (d_raw v) /\
    d_ind v = d_ind d /\ abs hv v = t_insert (KFloat, c) (VFloat <$> vs) (abs h d).
Proof using rt.
  clear Ho. intros W Hs Hne Hn Hl Hag.
  assert (Hn' : mp h (r_maps (d_raw d)) !! (KFloat, c) = None). { rewrite abs_cols_lookup in Hn. by destruct (_ !! (KFloat, c)). }
  unfold overwrite. rewrite (bind_eq _ _ h (mp h (r_maps (d_raw d))) h) by done. rewrite Hn'. cbn [default]. rewrite decide_True by done.
  cbv beta iota. pose proof W as [n Wn].
  destruct (alloc_cols_spec KFloat (d_raw d) [c] h) as
      (r1 & h1 & E1 & A1 & A2 & A3 & A4 & A5 & A6 & A7 & A8 & A9 & A9b & A10 & A11);
      [apply Wn|intros l Hl'; by apply (wf_shr _ _ _ Wn)|].
  destruct (A8 Hs ltac:(done)) as [X1 M1]. destruct (A11 c) as (s & S1 & S2); [set_solver|].
  destruct (alloc_cols_df h d KFloat [c] W (or_introl Hne)) as (r2 & h2 & E2 & W1 & Ab1 & _). rewrite E1 in E2. injection E2 as <- <-.
  rewrite (bind_eq _ _ _ _ _ E1). rewrite (bind_eq _ _ h1 (mp h1 (r_maps r1)) h1) by done. rewrite S1. cbn [default].
  destruct W1 as [n1 W1]. assert (Hv : Forall (fun v => kind_of v = KFloat) (VFloat <$> vs)). { apply Forall_fmap, Forall_forall. done. }
  pose proof (write_column_spec h1 (set_raw d r1) n1 KFloat c s (VFloat <$> vs) W1 S1 Hv) as Hw.
  change (inds (set_raw d r1)) with (inds d) in Hw. change (num_rows (set_raw d r1)) with (num_rows d) in Hw.
  change (id s) with s.
  destruct (write_loop s (inds d) (VFloat <$> vs) h1) as [[[] h']|] eqn:Ew; [|rewrite fmap_length in Hw; lia].
  destruct Hw as (_ & Hw & Hc1 & Hc2). rewrite (bind_eq _ _ _ _ _ Ew). exists (set_raw d r1), h'. split; [done|].
  assert (Hcell : forall a j, cell_of h1 (set_raw d r1) (KFloat, c) j = Some a -> length (h_arr h) <= a.1).
  { intros a j Ha. unfold cell_of in Ha. cbn [d_raw set_raw] in Ha. rewrite S1 in Ha. cbn in Ha.
    destruct (inds (set_raw d r1) !! j); [|done]. injection Ha as <-. destruct S2 as [S2 _]. simpl. lia. }
  assert (Hold : forall k j, k <> (KFloat, c) -> cell_of h1 (set_raw d r1) k j = cell_of h d k j).
  { intros k j Hk. unfold cell_of. cbn [d_raw set_raw]. rewrite A10; [done|]. destruct k as [k c']. simpl. destruct (decide (k = KFloat)) as [->|]; [|by left].
    right. intros ->%elem_of_list_singleton. done. }
  assert (W' : wf h' (set_raw d r1)) by (exists n1; by eapply wrt_wfn).
  split; [|split; [|split; [done|]]].
  - split; [|split; [done|split]].
    + eapply ext_wrt_young; [exact X1|exact Hw|]. intros a Ha. apply Hc1. intros j Hj. apply Hcell in Hj. lia.
    + intros c' k j1 j2 a ->%elem_of_singleton. rewrite !(wrt_cell_of _ _ _ _ _ Hw). intros H1 H2.
      destruct (decide (k = (KFloat, c))) as [|Hk]; [done|]. exfalso. rewrite Hold in H2 by done.
      apply Hcell in H1. apply (cell_of_valid h d k j2 a W) in H2. lia.
    + intros c' ->%elem_of_singleton s' Hs'. unfold mp in Hs', S1. destruct Hw. cbn [d_raw set_raw] in Hs'. 
      replace (h_map h') with (h_map h1) in Hs' by congruence. rewrite S1 in Hs'. injection Hs' as <-. destruct S2 as [S2 _]. lia.
  - right. cbn [d_raw set_raw]. rewrite M1. done.
  - apply table_ext.
    + intros k col. unfold t_insert. cbn [t_cols t_with_cols t_rows]. intros [[<- <-]|[? Hc]]%lookup_insert_Some.
      * rewrite fmap_length. split; [done|exact Hv].
      * by apply (abs_ok _ _ W) in Hc.
    + by apply abs_ok.
    + etrans; [|by apply wrt_shape]. rewrite Ab1, t_alloc_one. unfold same_shape, t_insert, t_with_cols. cbn. split; [done|]. split; [|done].
      by rewrite !dom_insert_L.
    + intros k j. rewrite (t_cell_abs h' (set_raw d r1) k j W'), (wrt_cell_of _ _ _ _ _ Hw).
      destruct (decide (k = (KFloat, c))) as [->|Hk].
      * unfold t_cell, t_insert. cbn [t_cols t_with_cols]. rewrite lookup_insert. cbn.
        destruct (inds d !! j) as [i|] eqn:Ei.
        -- destruct (Hc2 j i Ei) as (a & v & Ha & (j' & L1 & L2 & _) & Hv'). rewrite Ha. cbn. rewrite Hv', <- L2, !list_lookup_fmap.
           f_equal. by apply (Hag _ _ i).
        -- unfold cell_of. cbn [d_raw set_raw]. rewrite S1. cbn. change (inds (set_raw d r1)) with (inds d). rewrite Ei. cbn. symmetry. apply lookup_ge_None_2.
           apply lookup_ge_None_1 in Ei. rewrite (wfn_inds_length _ _ _ Wn) in Ei. rewrite fmap_length. lia.
      * rewrite Hold by done. unfold t_cell, t_insert. cbn [t_cols t_with_cols]. rewrite lookup_insert_ne by done.
        pose proof (t_cell_abs h d k j W) as Ht. unfold t_cell in Ht. rewrite Ht. destruct (cell_of h d k j) as [a|] eqn:Ea; [|done]. cbn.
        assert (Hya : a.1 < length (h_arr h)) by (by apply (cell_of_valid h d k j a W)).
        rewrite Hc1 by (intros j' Hj'; apply Hcell in Hj'; lia).
        pose proof (t_cell_abs h1 (set_raw d r1) k j ltac:(by exists n1)) as Ht1. rewrite Hold, Ea in Ht1 by done. cbn in Ht1.
        rewrite <- Ht1, Ab1, t_alloc_one. unfold t_cell, t_with_cols. cbn. rewrite lookup_insert_ne by done. unfold t_cell in Ht. exact Ht.
Qed.
End predict.
