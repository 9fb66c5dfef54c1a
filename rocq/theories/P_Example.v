(** The experiment of examples/linreg.go: shuffling and splitting. *)
From Verif Require Import M_Example P_Check.
From Verif Require Export Spec_Example P_Json3 P_JsonMain P_LinRegMain.
From Verif Require Import P_View2 P_View3 P_ViewMain P_AutoMain P_Auto6 P_Auto5 P_Auto4 P_Hash P_Check.
Local Open Scope nat_scope.

Section example.
Context {rt : GoRT}.

(** ** Index lists *)
Lemma cut_viewed h d a b v h' : wf h d -> d_viewed d = true -> (0 <= a <= b)%Z -> (b <= Z.of_nat (num_rows d))%Z ->
  cut (view d) a b h = Ok (v, h') -> inds v = take (Z.to_nat (b - a)) (drop (Z.to_nat a) (inds d)).
Proof.
  intros [n W] Hv Hab Hb E. pose proof (wf_ilen _ _ _ W) as Hil. unfold cut in E.
  rewrite (bind_eq _ _ h (mp h (r_maps (d_raw (view d)))) h) in E by done.
  change (d_viewed (view d)) with (d_viewed d) in E. rewrite Hv in E. cbn [orb] in E. change (d_ind (view d)) with (d_ind d) in E.
  unfold ind_cut in E. unfold num_rows in *. rewrite decide_True in E by lia. unfold bind, lift, ret in E. injection E as <- <-.
  unfold inds, ilist. simpl. rewrite skipn_firstn_comm, take_take. f_equal. lia.
Qed.
Lemma slice_viewed h d a b v h' : wf h d -> d_viewed d = true -> (0 <= a <= b)%Z -> (b <= Z.of_nat (num_rows d))%Z ->
  slice_view d a b h = Ok (v, h') -> inds v = take (Z.to_nat (b - a)) (drop (Z.to_nat a) (inds d)).
Proof.
  intros W Hv Hab Hb. unfold slice_view. rewrite !(decide_False (P := (_ < _)%Z)) by lia. rewrite (decide_False (P := (_ > _)%Z)) by lia.
  by apply cut_viewed.
Qed.
(** SplitTrainTestViews of a shuffled view. *)
Lemma split_shuffled h d r : wf h d -> d_viewed d = true -> (Z.of_nat (num_rows d) <= 2 ^ 53)%Z ->
  valid_binary 53 1024 r = true -> f64_isnan r = false ->
  match split_train_test d r h with
  | Ok ((train, test), h') =>
      f64_lt r f64_zero = false /\ f64_lt f64_one r = false /\
      wf h' train /\ wf h' test /\ ext h h' /\
      exists n, n <= num_rows d /\ Z.of_nat n = f64_trunc (f64_mul (f64_of_Z (Z.of_nat (num_rows d))) r) /\
        inds train = take (num_rows d - n) (inds d) /\ inds test = drop (num_rows d - n) (inds d) /\
        abs h' train = t_select (seq 0 (num_rows d - n)) (abs h d) /\ abs h' test = t_select (seq (num_rows d - n) n) (abs h d)
  | Panic => f64_lt r f64_zero = true \/ f64_lt f64_one r = true
  end.
Proof.
  intros W Hview Hsz Vr Nr. unfold split_train_test.
  destruct (f64_lt r f64_zero) eqn:H0; [by left|]. destruct (f64_lt f64_one r) eqn:H1; [by right|].
  cbn [orb]. set (rows := Z.of_nat (num_rows d)) in *.
  destruct (P_Float.ratio_trunc rows r ltac:(lia) Vr Nr H0 H1) as (_ & Hn & _).
  set (n := f64_trunc (f64_mul (f64_of_Z rows) r)) in *.
  assert (forall z, (0 <= z)%Z -> bound (num_rows d) z = z) as Hbd.
  { intros z Hz. unfold bound. by rewrite decide_False by lia. }
  destruct (slice_view_fwd h d 0 (rows - n) W) as (v1 & h1 & E1 & A1 & W1 & X1 & R1);
    [rewrite !Hbd; lia..|].
  rewrite (bind_eq _ _ _ _ _ E1).
  destruct (slice_view_fwd h1 d (rows - n) rows) as (v2 & h2 & E2 & A2 & W2 & X2 & R2);
    [by eapply ext_wf|rewrite !Hbd; lia..|].
  rewrite (bind_eq _ _ _ _ _ E2). unfold ret.
  rewrite !Hbd in A1, A2 by lia. rewrite (ext_abs _ _ _ X1 W) in A2.
  split; [done|]. split; [done|]. split; [by eapply ext_wf|]. split; [done|].
  split; [by etrans|]. exists (Z.to_nat n). split; [lia|]. split; [lia|].
  pose proof W as [nn Wn]. pose proof (wfn_inds_length _ _ _ Wn) as HL.
  apply slice_viewed in E1 as I1; [|done..|lia|lia]. apply slice_viewed in E2 as I2; [|by eapply ext_wf|done|lia|lia].
  split. { rewrite I1. simpl. rewrite drop_0. f_equal. lia. }
  split. { rewrite I2. rewrite take_ge by (rewrite drop_length; lia). f_equal. lia. }
  split.
  - rewrite (ext_abs _ _ _ X2 W1), A1, (t_slice_select _ _ nn _ _ Wn) by lia. f_equal. f_equal; lia.
  - rewrite A2, (t_slice_select _ _ nn _ _ Wn) by lia. f_equal. f_equal; lia.
Qed.
End example.

(** ** Selections of rows *)
Lemma select_is_Some ix t k : is_Some (t_cols (t_select ix t) !! k) <-> is_Some (t_cols t !! k).
Proof. unfold t_select. cbn [t_cols]. rewrite lookup_fmap. apply fmap_is_Some. Qed.
Lemma unique_select ix t : unique_names t -> unique_names (t_select ix t).
Proof. intros H k1 k2 c. rewrite !select_is_Some. apply H. Qed.
Lemma strings_select ix t : strings_ok t -> strings_ok (t_select ix t).
Proof.
  intros [H1 H2]. split; [intros c Hc; apply select_is_Some; by apply H1|].
  destruct H2 as [H2|(k & Hk & Hk2)]; [by left|right]. exists k. split; [by apply select_is_Some|done].
Qed.
Lemma categorical_select ix t c : categorical (t_select ix t) c <-> categorical t c.
Proof. unfold categorical. cbn [t_select t_strs]. destruct (decide _); [apply (select_is_Some ix t (KInt, c))|done]. Qed.
Lemma no_clash_select ix t : no_clash t -> no_clash (t_select ix t).
Proof. intros H c c' i Hc Hc'. apply H; by eapply categorical_select. Qed.
Lemma float_used_select opt ix t c : float_used opt (t_select ix t) c <-> float_used opt t c.
Proof.
  unfold float_used. rewrite select_is_Some. split; intros [H1 H2]; split; try done; (destruct H2 as [H2|H2]; [by left|right]); intros c' Hc'; apply H2; by apply (select_is_Some ix t (KFloat, c')).
Qed.
Lemma pick_elem {A} ix (l : list A) x : x ∈ pick ix l -> x ∈ l.
Proof. intros H. unfold pick in H. apply elem_of_list_omap in H as (i & _ & H). by eapply elem_of_list_lookup_2. Qed.
Lemma pick_fmap {A B} (f : A -> B) ix (l : list A) : pick ix (f <$> l) = f <$> pick ix l.
Proof.
  unfold pick. induction ix as [|i ix IH]; [done|]. cbn. rewrite list_lookup_fmap. destruct (l !! i); cbn; [f_equal; exact IH|exact IH].
Qed.
Lemma floats_select ix t c : t_floats (t_select ix t) c = pick ix (t_floats t c).
Proof.
  unfold t_floats. cbn [t_select t_cols]. rewrite lookup_fmap, pick_fmap. destruct (t_cols t !! (KFloat, c)); [done|]. cbn.
  induction ix as [|i ix IH]; [done|]. exact IH.
Qed.
Lemma good_floats_select ix t : good_floats t -> good_floats (t_select ix t).
Proof. intros H c. rewrite floats_select. apply Forall_forall. intros x Hx%pick_elem. specialize (H c). rewrite Forall_forall in H. by apply H. Qed.
Lemma good_names_select ix t : good_names t -> good_names (t_select ix t).
Proof.
  intros [H1 H2]. split; [intros k c; rewrite select_is_Some; apply H1|]. intros c z Hz. apply (H2 c). unfold t_ints in *. cbn [t_select t_cols] in Hz.
  rewrite lookup_fmap in Hz. destruct (t_cols t !! (KInt, c)); cbn in *; [|done]. rewrite <- pick_fmap in Hz. by eapply pick_elem.
Qed.
Lemma select_select ix iy t : t_ok t -> Forall (fun i => i < t_rows t) ix -> Forall (fun i => i < length ix) iy ->
  t_select iy (t_select ix t) = t_select (pick iy ix) t.
Proof.
  intros Hok Hix Hiy. unfold t_select. cbn [t_cols t_strs t_enc t_cpu]. f_equal.
  - clear -Hiy. induction Hiy as [|i iy Hi Hiy IH]; [done|]. unfold pick in *. cbn. apply lookup_lt_is_Some in Hi as [x Hx]. rewrite Hx. cbn. by f_equal.
  - rewrite <- map_fmap_compose. apply map_fmap_ext. intros k col Hk. simpl. apply pick_pick.
    destruct (Hok k col Hk) as [-> _]. done.
Qed.

(** ** Rows that occur once *)
Lemma repeat_floats_ext n n' f (col : list val) : (forall j, j < length col -> n j = n' j) -> repeat_floats n f col = repeat_floats n' f col.
Proof.
  intros H. unfold repeat_floats. apply list_eq. intros j. rewrite !list_lookup_imap. destruct (col !! j) eqn:E; [|done]. simpl.
  apply lookup_lt_Some in E. by rewrite H.
Qed.
Lemma t_update_n_ext n n' F g t : t_ok t -> (forall j, j < t_rows t -> n j = n' j) -> t_update_n n F g t = t_update_n n' F g t.
Proof.
  intros Hok H. unfold t_update_n. f_equal. apply map_eq. intros k. rewrite !map_lookup_imap. destruct (t_cols t !! k) as [col|] eqn:E; [|done]. simpl.
  destruct (decide _); [|done]. f_equal. apply repeat_floats_ext. destruct (Hok k col E) as [-> _]. done.
Qed.
Lemma prep_floats_ext n n' p t : t_ok t -> (forall j, j < t_rows t -> n j = n' j) -> prep_floats n p t = prep_floats n' p t.
Proof.
  intros Hok H. unfold prep_floats. destruct (ap_scaler p); [|done]. apply t_update_n_ext; destruct (ap_imputer p); rewrite ?t_update_1; try done. by apply t_update_n_ok.
Qed.
Lemma reps_once d j : NoDup (inds d) -> j < length (inds d) -> reps d j = once j.
Proof. intros Hnd Hj. apply lookup_lt_is_Some in Hj as [i Hi]. by eapply reps_one. Qed.
Lemma prepared_once p h d t' : wf h d -> NoDup (inds d) -> prepared_as (reps d) p (abs h d) t' -> prepared_as once p (abs h d) t'.
Proof.
  intros W Hnd. assert (E : prep_floats (reps d) p (abs h d) = prep_floats once p (abs h d)).
  { apply prep_floats_ext; [by apply abs_ok|]. intros j Hj. apply reps_once; [done|]. destruct W as [n W]. rewrite (wfn_inds_length _ _ _ W). exact Hj. }
  unfold prepared_as. by rewrite E.
Qed.

(** ** The columns of a prepared table *)
Definition same_header (t u : table) : Prop := (forall k, is_Some (t_cols t !! k) <-> is_Some (t_cols u !! k)) /\ t_strs t = t_strs u.
Lemma has_inputs_header p t u : same_header t u -> has_inputs p t -> has_inputs p u.
Proof.
  intros [H _] (I1 & I2 & I3 & I4 & I5). split; [|split; [|split; [|split]]].
  - intros f c E Hc. apply H. by eapply I1.
  - intros s c E Hc. apply H. by eapply I2.
  - intros cols c E Hc. apply H. by eapply I3.
  - intros cols E. destruct (I4 cols E) as (k & Hk & ?). exists k. split; [by apply H|done].
  - intros e c E1 E2 Hc. apply H. by eapply I5.
Qed.
Lemma prep_strings_header p t u : same_header t u -> has_inputs p t -> forall k, is_Some (t_cols (prep_strings p t) !! k) <-> is_Some (t_cols (prep_strings p u) !! k).
Proof.
  intros HH HI [k c]. pose proof (has_inputs_header p t u HH HI) as HU. destruct HH as [H _]. unfold prep_strings. destruct (ap_hash p) as [cols|] eqn:E; [|apply H].
  destruct HI as (_ & _ & I3 & _). destruct HU as (_ & _ & U3 & _).
  rewrite !C24_hashed_columns_main; [|by intros c'; apply U3|by intros c'; apply I3]. destruct (decide (c ∈ cols)); [|apply H].
  destruct k; rewrite ?fmap_is_Some; done || apply H.
Qed.
Lemma prep_floats_header n p t : same_header (prep_floats n p t) t.
Proof. split; [intros k; apply prep_floats_dom|apply prep_floats_rest]. Qed.
Lemma header_trans t u w : same_header t u -> same_header u w -> same_header t w.
Proof. intros [A1 A2] [B1 B2]. split; [intros k; by rewrite A1|congruence]. Qed.
Lemma header_sym t u : same_header t u -> same_header u t.
Proof. intros [A1 A2]. split; [intros k; by rewrite A1|done]. Qed.
Lemma prepared_header n n' p t u t' u' : same_header t u -> has_inputs p t -> prepared_as n p t t' -> prepared_as n' p u u' ->
  forall k, is_Some (t_cols t' !! k) <-> is_Some (t_cols u' !! k).
Proof.
  intros HH HI P1 P2 k.
  assert (H0 : same_header (prep_floats n p t) (prep_floats n' p u)).
  { eapply header_trans; [apply prep_floats_header|]. eapply header_trans; [exact HH|]. apply header_sym, prep_floats_header. }
  assert (HI0 : has_inputs p (prep_floats n p t)) by (eapply has_inputs_header; [apply header_sym, prep_floats_header|done]).
  pose proof (prep_strings_header p _ _ H0 HI0) as HS. unfold prepared_as in P1, P2. destruct (ap_onehot p) as [e|]; [|by rewrite P1, P2].
  destruct (decide (k.1 <> KBool \/ k.2 ∉ en_new e)) as [Hk|Hk].
  - rewrite (ec_others _ _ _ P1 k Hk), (ec_others _ _ _ P2 k Hk). destruct (decide _); [done|]. apply HS.
  - destruct k as [[] c]; simpl in Hk; try (exfalso; apply Hk; by left). assert (Hc : c ∈ en_new e).
    { destruct (decide (c ∈ en_new e)); [done|]. exfalso. apply Hk. by right. }
    destruct (ec_new _ _ _ P1 c Hc) as (x & -> & _). destruct (ec_new _ _ _ P2 c Hc) as (y & -> & _). by split; eexists.
Qed.
