(** Writing to a directory: the pieces and the files. *)
From Verif Require Export Spec_Output.
From Verif Require Import P_View2 P_View3 P_Csv2 P_Csv4 P_Csv5 P_CsvW P_CsvW2 P_CsvMain.

Lemma zceil a b : 0 < b ->
  (if decide (Z.of_nat a mod Z.of_nat b = 0)%Z then (Z.of_nat a / Z.of_nat b)%Z else (Z.of_nat a / Z.of_nat b + 1)%Z) = Z.of_nat ((a + b - 1) / b).
Proof.
  intros Hb. rewrite Nat2Z.inj_div. replace (Z.of_nat (a + b - 1)) with (Z.of_nat a + (Z.of_nat b - 1))%Z by lia.
  pose proof (Z.div_mod (Z.of_nat a) (Z.of_nat b) ltac:(lia)) as E. pose proof (Z.mod_pos_bound (Z.of_nat a) (Z.of_nat b) ltac:(lia)) as Hm.
  generalize dependent (Z.of_nat a mod Z.of_nat b)%Z. generalize (Z.of_nat a / Z.of_nat b)%Z. intros q r E Hr.
  rewrite E. destruct (decide (r = 0)%Z) as [->|Hne].
  - apply (Zdiv_unique _ _ _ (Z.of_nat b - 1)%Z); lia.
  - apply (Zdiv_unique _ _ _ (r - 1)%Z); lia.
Qed.
Lemma ceil_bounds a b : 0 < b -> a <= (a + b - 1) / b * b /\ (0 < a -> ((a + b - 1) / b - 1) * b < a /\ 0 < (a + b - 1) / b).
Proof.
  intros Hb. pose proof (Nat.div_mod (a + b - 1) b ltac:(lia)) as E. pose proof (Nat.mod_upper_bound (a + b - 1) b ltac:(lia)) as Hm.
  generalize dependent ((a + b - 1) mod b). generalize ((a + b - 1) / b). intros q r E Hr. split; [nia|]. intros Ha.
  assert (0 < q) by (destruct q; nia). split; [nia|done].
Qed.
Lemma t_slice_all t : t_ok t -> t_slice 0 (t_rows t) t = t.
Proof.
  intros Hok. destruct t as [n cols strs enc cpu]. unfold t_slice. cbn in *. rewrite Nat.sub_0_r. f_equal.
  apply map_eq. intros k. rewrite lookup_fmap. destruct (cols !! k) as [c|] eqn:E; [|done]. cbn. f_equal. destruct (Hok k c E) as [Hl _]. cbn in Hl.
  rewrite drop_0. apply take_ge. lia.
Qed.

Section split.
Context {rt : GoRT}.
Lemma split_view_slices h d b : wf h d -> 0 < b -> 0 < num_rows d ->
  exists vs h', split_view d (Z.of_nat b) h = Ok (vs, h') /\ ext h h' /\ Forall (wf h') vs /\
    abs h' <$> vs = (fun j => t_slice (j * b) (num_rows d `min` (S j * b)) (abs h d)) <$> seq 0 ((num_rows d + b - 1) / b).
Proof.
  intros W Hb Hr. unfold split_view. rewrite decide_False by lia. rewrite zceil by done.
  destruct (ceil_bounds (num_rows d) b Hb) as [B1 B2]. destruct (B2 Hr) as [B3 B4]. clear B2.
  set (n := (num_rows d + b - 1) / b) in *. clearbody n. destruct (decide (Z.of_nat n <= 1)%Z) as [Hn|Hn].
  - exists [view d], h. split; [done|]. split; [apply ext_refl|]. split; [constructor; [by apply wf_view|done]|].
    assert (n = 1) as -> by lia. cbn [seq]. rewrite !list_fmap_singleton. f_equal. change (abs h (view d)) with (abs h d).
    rewrite Nat.min_l by lia. symmetry. apply (t_slice_all (abs h d)). by apply abs_ok.
  - destruct (split_loop_spec d (Z.of_nat b) n ltac:(lia) ltac:(lia) 0%Z h W) as (vs & h' & E & X & _ & Wvs & A); [lia|nia|].
    exists vs, h'. rewrite Nat2Z.id. split; [done|]. split; [done|]. split; [done|]. rewrite A. apply list_fmap_ext. intros i j _. by rewrite !Nat2Z.id.
Qed.
Lemma split_pieces h d n : wf h d -> 0 < n -> 0 < num_rows d \/ n = 1 ->
  exists vs pad h', split_n_view d (Z.of_nat n) h = Ok (vs ++ pad, h') /\ ext h h' /\ Forall (wf h') (vs ++ pad) /\ length (vs ++ pad) = n /\
    abs h' <$> vs = pieces (abs h d) n /\ Forall (fun v => num_rows v = 0 /\ t_cols (abs h' v) = ∅ /\ t_strs (abs h' v) = ∅) pad.
Proof.
  intros W Hn Hr. unfold split_n_view. rewrite decide_False, decide_False by lia. unfold pieces. change (t_rows (abs h d)) with (num_rows d).
  destruct (decide (num_rows d = 0)) as [Hz|Hz].
  { rewrite decide_True by (by right). assert (n = 1) as -> by lia. exists [view d], [], h. split; [done|]. split; [apply ext_refl|].
    split; [constructor; [by apply wf_view|done]|]. done. }
  destruct (decide (Z.of_nat n = 1%Z \/ num_rows d = 0)) as [H1|H1].
  { assert (n = 1) as -> by lia. exists [view d], [], h. split; [done|]. split; [apply ext_refl|]. split; [constructor; [by apply wf_view|done]|].
    split; [done|]. split; [|done]. rewrite list_fmap_singleton. change (abs h (view d)) with (abs h d).
    assert (piece_size (num_rows d) 1 = num_rows d) as Hp. { unfold piece_size. rewrite Nat.div_1_r. lia. }
    assert (num_pieces (num_rows d) 1 = 1) as Hq.
    { unfold num_pieces. rewrite Hp. symmetry. apply (Nat.div_unique _ _ _ (num_rows d - 1)); lia. }
    cbv zeta. rewrite Hp, Hq. cbn [seq]. rewrite list_fmap_singleton. f_equal. rewrite Nat.min_l by lia. symmetry. apply (t_slice_all (abs h d)). by apply abs_ok. }
  rewrite zceil by done. fold (piece_size (num_rows d) n). destruct (ceil_bounds (num_rows d) n Hn) as [B1 B2]. destruct (B2 ltac:(lia)) as [B3 B4].
  fold (piece_size (num_rows d) n) in B1, B3, B4. set (b := piece_size (num_rows d) n) in *.
  destruct (split_view_slices h d b W ltac:(lia) ltac:(lia)) as (vs & h1 & E & X & Wv & A). cbv zeta. rewrite (bind_eq _ _ _ _ _ E).
  assert (Hl : length vs = num_pieces (num_rows d) n). { apply (f_equal length) in A. by rewrite !fmap_length, seq_length in A. }
  assert (Hle : num_pieces (num_rows d) n <= n).
  { unfold num_pieces. cbv zeta. fold b. destruct (ceil_bounds (num_rows d) b ltac:(lia)) as [C1 C2]. destruct (C2 ltac:(lia)) as [C3 C4].
    clearbody b. generalize dependent ((num_rows d + b - 1) / b). intros q. intros. nia. }
  destruct (decide (0 < Z.of_nat n - Z.of_nat (length vs))%Z) as [Hm|Hm].
  - destruct (empty_df0_spec (r_cpu (d_raw d)) h1) as (e & h2 & E2 & X2 & _ & We & Z0 & Z1 & Z2). rewrite (bind_eq _ _ _ _ _ E2).
    exists vs, (replicate (Z.to_nat (Z.of_nat n - Z.of_nat (length vs))) e), h2. split; [done|]. split; [by eapply ext_trans|].
    split; [apply Forall_app; split; [eapply Forall_impl; [exact Wv|]; intros v; by apply ext_wf|by apply Forall_replicate]|].
    split; [rewrite app_length, replicate_length; lia|]. split; [|by apply Forall_replicate].
    unfold num_pieces in Hl. fold b in Hl. unfold num_pieces. fold b. rewrite <- A. apply list_fmap_ext. intros i v Hv. apply ext_abs; [done|]. eapply Forall_lookup_1; [exact Wv|exact Hv].
  - exists vs, [], h1. rewrite !app_nil_r. split; [done|]. split; [done|]. split; [done|]. split; [lia|]. done.
Qed.
End split.

Section write.
Context {crt : CsvRT} {rt : GoRT}.
Definition records_of (marker : string) (t : table) (f : list (list string)) : Prop :=
  exists keys rows, csv_order t keys /\ t_records marker keys t = Some rows /\ f = (snd <$> keys) :: rows.
Lemma unwritable_slice a b t : b <= t_rows t -> t_ok t -> unwritable (t_slice a b t) -> unwritable t.
Proof.
  intros Hb Hok (c & Hc & H). exists c. split; [done|]. cbn in H. rewrite lookup_fmap in H. destruct (t_cols t !! (KObj, c)) as [col|] eqn:E; cbn in H.
  - destruct H as (v & Hv & H). exists v. split; [|done]. apply elem_of_list_lookup in Hv as [i Hi].
    destruct (decide (i < b - a)) as [Hi'|Hi']; [|by rewrite lookup_take_ge in Hi by lia]. rewrite lookup_take, lookup_drop in Hi by done. by eapply elem_of_list_lookup_2.
  - lia.
Qed.
Lemma unwritable_piece t n p : t_ok t -> p ∈ pieces t n -> unwritable p -> unwritable t.
Proof.
  intros Hok. unfold pieces. destruct (decide (t_rows t = 0)); [by intros ->%elem_of_list_singleton|].
  intros (j & -> & _)%elem_of_list_fmap. apply unwritable_slice; [lia|done].
Qed.
Lemma to_csvs_pieces order o h d n : wf h d -> (forall i, perm_order (order i)) -> 0 < n -> 0 < num_rows d \/ n = 1 ->
  let t := abs h (sort_if_needed o d) in
  match to_csvs order (fun _ _ => true) o d n h with
  | Ok (files, failed, h') => failed = false /\ ext h h' /\ exists fs rest, files = fs ++ rest /\ length files = n /\
      Forall (fun f => f = [[]]) rest /\ Forall2 (records_of (ws_marker o)) (pieces t n) fs
  | Panic => unwritable t
  end.
Proof.
  intros W P Hn Hr t. assert (W' : wf h (sort_if_needed o d)) by (by apply sort_wf).
  destruct (split_pieces h (sort_if_needed o d) n W' Hn ltac:(by rewrite sort_rows)) as (vs & pad & h1 & E & X & Wv & Hl & A & HP).
  unfold to_csvs. rewrite (bind_eq _ _ _ _ _ E). fold t in A.
  pose proof (write_parts_all order (fun _ _ => true) (WSpec (ws_marker o) (ws_min_rows o) true) (vs ++ pad) eq_refl P ltac:(done) n 0 h1 ltac:(lia) Wv) as HW.
  unfold bind at 1. destruct (write_parts order _ _ 0 n (vs ++ pad) h1) as [[l h2]|].
  - unfold ret. destruct HW as (X2 & L2 & F2 & R2). cbn [fst snd]. split; [|split].
    + clear -F2. induction F2 as [|p l Hp F IH]; [done|]. simpl. by rewrite Hp, IH.
    + by eapply ext_trans.
    + rewrite app_length in Hl. exists (take (length vs) l.*1), (drop (length vs) l.*1). split; [by rewrite take_drop|]. split; [by rewrite fmap_length|]. split.
      * apply Forall_lookup. intros j f Hj. rewrite lookup_drop, list_lookup_fmap in Hj.
        destruct (l !! (length vs + j)) as [p|] eqn:Ep; [|done]. injection Hj as <-.
        destruct (lookup_lt_is_Some_2 pad j) as [v Hv]. { apply lookup_lt_Some in Ep. lia. }
        destruct (R2 (length vs + j) p v Ep) as (rows & Er & ->).
        { simpl. rewrite lookup_app_r by lia. by replace (length vs + j - length vs) with j by lia. }
        rewrite Forall_lookup in HP. destruct (HP j v Hv) as (Z0 & Z1 & Z2).
        assert (Hk : keys_of (order (0 + (length vs + j))) (abs h1 v) = []).
        { assert (Hnil : forall i k, order (0 + (length vs + j)) i (of_kind k (abs h1 v)) = []).
          { intros i k. apply Permutation_nil. symmetry. rewrite (P _ i). unfold of_kind. rewrite Z1. by rewrite dom_empty_L. }
          unfold keys_of. rewrite !Hnil, Z2. assert (order (0 + (length vs + j)) 3 ∅ = []) as ->; [|done].
          apply Permutation_nil. symmetry. rewrite (P _ 3). done. }
        rewrite Hk in Er |- *. simpl in Er. unfold t_records in Er. change (t_rows (abs h1 v)) with (num_rows v) in Er. rewrite Z0 in Er. simpl in Er.
        injection Er as <-. done.
      * rewrite <- A. apply Forall2_same_length_lookup_2.
        { rewrite take_length, !fmap_length. lia. }
        intros j u f Hu Hj. rewrite list_lookup_fmap in Hu. destruct (vs !! j) as [v|] eqn:Ev; [|done]. injection Hu as <-.
        assert (Hjl : j < length vs) by (by eapply lookup_lt_Some).
        rewrite lookup_take, list_lookup_fmap in Hj by done. destruct (l !! j) as [p|] eqn:Ep; [|done]. injection Hj as <-.
        destruct (R2 j p v Ep) as (rows & Er & ->); [simpl; by rewrite lookup_app_l|].
        exists (keys_of (order j) (abs h1 v)), rows. split; [by apply keys_of_order|done].
  - destruct HW as (v & Hv & Hu). apply elem_of_app in Hv as [Hv|Hv].
    + eapply (unwritable_piece t n); [by apply abs_ok| |exact Hu]. rewrite <- A. by apply elem_of_list_fmap_1.
    + rewrite Forall_forall in HP. destruct (HP v Hv) as (_ & _ & Z2). destruct Hu as (c & Hc & _). rewrite Z2 in Hc. set_solver.
Qed.
End write.
