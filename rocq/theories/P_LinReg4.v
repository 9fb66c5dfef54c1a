(** Training: the loop over the epochs. *)
From Verif Require Import P_PrepMain P_View3 P_Batch2 P_Detach.
From Verif Require Export P_LinReg3.
From Verif Require Import P_Auto.

Lemma cut_parts {X Y} (F : nat -> X) (G : nat -> Y) (L : list (list X * list Y)) : forall p : list nat,
  Forall (fun l => length l.1 = length l.2) L -> concat L.*1 = F <$> p -> concat L.*2 = G <$> p ->
  exists parts : list (list nat), concat parts = p /\ L = (fun q : list nat => (F <$> q, G <$> q)) <$> parts.
Proof.
  induction L as [|[l1 l2] L IH]; intros p HF H1 H2.
  { symmetry in H1. apply fmap_nil_inv in H1 as ->. by exists []. }
  apply Forall_cons in HF as [Hl HF]. cbn [fst snd] in Hl. cbn [fmap list_fmap concat fst snd] in H1, H2.
  assert (Hn : length l1 <= length p). { apply (f_equal length) in H1. rewrite app_length, fmap_length in H1. lia. }
  remember (length l1) as n eqn:En.
  rewrite <- (take_drop n p), fmap_app in H1. rewrite <- (take_drop n p), fmap_app in H2.
  apply app_inj_1 in H1 as [E1 H1]; [|rewrite fmap_length, take_length; lia].
  apply app_inj_1 in H2 as [E2 H2]; [|rewrite fmap_length, take_length; lia].
  destruct (IH _ HF H1 H2) as (parts & E & EL). exists (take n p :: parts). split; [cbn; rewrite E; apply take_drop|].
  cbn. by rewrite E1, E2, EL.
Qed.
Lemma select_rows f ks p t : t_ok t -> Forall (fun k => is_Some (t_cols t !! k)) ks -> Forall (fun i => i < t_rows t) p ->
  t_num_rows f (t_select p t) ks = t_num_row f t ks <$> p.
Proof.
  intros Hok Fk Hp. unfold t_num_rows. cbn [t_rows t_select]. apply list_eq. intros j. rewrite !list_lookup_fmap.
  destruct (p !! j) as [i|] eqn:E.
  - rewrite lookup_seq_lt by (by eapply lookup_lt_Some). cbn. f_equal. unfold t_num_row. apply list_fmap_ext. intros y k Hy.
    unfold t_select. cbn [t_cols]. rewrite lookup_fmap. rewrite Forall_lookup in Fk. destruct (Fk _ _ Hy) as [col Hc]. rewrite Hc. cbn.
    destruct (Hok _ _ Hc) as [Hl _]. rewrite pick_lookup by (by rewrite Hl). by rewrite E.
  - rewrite lookup_seq_ge; [done|]. by apply lookup_ge_None.
Qed.
Lemma select_floats c p t : t_ok t -> is_Some (t_cols t !! (KFloat, c)) -> Forall (fun i => i < t_rows t) p ->
  t_floats (t_select p t) c = (fun j => default f64_zero (t_floats t c !! j)) <$> p.
Proof.
  intros Hok [col Hc] Hp. unfold t_floats, t_select. cbn [t_cols]. rewrite lookup_fmap, Hc. cbn. destruct (Hok _ _ Hc) as [Hl _].
  apply list_eq. intros j. rewrite !list_lookup_fmap, pick_lookup by (by rewrite Hl). destruct (p !! j) as [i|] eqn:E; [|done]. cbn.
  rewrite list_lookup_fmap. rewrite Forall_lookup in Hp. destruct (lookup_lt_is_Some_2 col i) as [v Hv]; [rewrite Hl; by eapply Hp|].
  by rewrite Hv.
Qed.
Lemma concat_floats {B} (g : B -> table) c (bs : list B) t : t_concat (g <$> bs) t -> is_Some (t_cols t !! (KFloat, c)) ->
  t_floats t c = concat ((fun b => t_floats (g b) c) <$> bs).
Proof.
  intros (_ & _ & H3) [col Hcol]. pose proof (H3 _ _ Hcol) as E. unfold t_floats at 1. rewrite Hcol. change (default [] (Some col)) with col. rewrite <- E.
  clear. induction bs as [|x l IH]; [done|]. rewrite !fmap_cons. cbn [concat]. rewrite fmap_app. f_equal. exact IH.
Qed.
Lemma floats_length t c : t_ok t -> is_Some (t_cols t !! (KFloat, c)) -> length (t_floats t c) = t_rows t.
Proof. intros Hok [col Hc]. unfold t_floats. rewrite fmap_length, Hc. by apply Hok in Hc as [? _]. Qed.

Section epochs.
Context {rt : GoRT} (bl : blas f64_arith).
Lemma epoch_loop_spec (p : lr_params f64_arith) d cols ks T : ks <> [] -> (0 < lp_batch p)%Z -> 0 < num_rows d ->
  num_keys T cols = Some ks -> is_Some (t_cols T !! (KFloat, "_target")) ->
  forall rnds h db st, wf h d -> abs h d = T -> length st.2 = length st.1 ->
  (db = new_dense cols \/ forall n, n <= Z.to_nat (lp_batch p) `min` num_rows d -> dense_at cols ks (Z.to_nat (lp_batch p) `min` num_rows d) db n) ->
  exists epochs h', epoch_loop bl p d rnds db st h =
    Ok (foldl (train_step (A:=f64_arith) (dot_t bl) (dot_n bl) (lp_lr p) (lp_momentum p) (lp_decay p)) st
              (part_data T ks (fun j => default f64_zero (t_floats T "_target" !! j)) <$> concat epochs), h') /\
    ext h h' /\ length epochs = length rnds /\ Forall (batches_of (Z.to_nat (lp_batch p)) (num_rows d)) epochs.
Proof.
  intros Hkn HB Hr Hk Ht. destruct (num_keys_spec _ _ _ Hk) as (_ & _ & Fk).
  induction rnds as [|rnd rnds IH]; intros h db st W HT Hst HD.
  { exists [], h. by split; [|split; [|split]]. }
  cbn [epoch_loop]. assert (Hok : t_ok T) by (rewrite <- HT; by apply abs_ok). assert (HTr : t_rows T = num_rows d) by (by rewrite <- HT).
  destruct (shuffle_view_spec rnd h d W) as (q & v & h1 & Hq & _ & E1 & A1 & W1 & X1 & _). rewrite (bind_eq _ _ _ _ _ E1).
  assert (Hql : length q = num_rows d) by (apply Permutation_length in Hq; by rewrite seq_length in Hq).
  assert (Hqr : Forall (fun i => i < t_rows T) q). { apply Forall_forall. intros x Hx. rewrite Hq in Hx. apply elem_of_seq in Hx. lia. }
  (* the copy *)
  assert (H2 : exists v2 h2, (if lp_lowmem p then ret v else copy_df v) h1 = Ok (v2, h2) /\ ext h1 h2 /\ wf h2 v2 /\
     t_cols (abs h2 v2) = t_cols (t_select q T) /\ num_rows v2 = num_rows d).
  { assert (Hv : num_rows v = num_rows d). { change (num_rows v) with (t_rows (abs h1 v)). by rewrite A1. }
    destruct (lp_lowmem p).
    - exists v, h1. split; [done|]. split; [apply ext_refl|]. split; [done|]. by rewrite A1, HT.
    - destruct (copy_df_spec h1 v W1) as (v2 & h2 & E2 & X2 & W2 & _ & A2 & _). exists v2, h2. split; [done|]. split; [done|]. split; [done|].
      split; [rewrite A2; cbn [t_cols]; by rewrite A1, HT|]. change (num_rows v2) with (t_rows (abs h2 v2)). by rewrite A2. }
  destruct H2 as (v2 & h2 & E2 & X2 & W2 & C2 & R2). rewrite (bind_eq _ _ _ _ _ E2).
  assert (Hk2 : num_keys (abs h2 v2) cols = Some ks). { rewrite <- Hk. apply num_keys_dom. by rewrite C2, t_select_dom. }
  destruct (split_batches h2 v2 (lp_batch p) cols ks W2 HB ltac:(lia) Hk2) as (b & vs & h3 & E3 & X3 & FB & TC & HS & HL).
  rewrite (bind_eq _ _ _ _ _ E3). pose proof (proj1 TC) as Hsum. change (t_rows (abs h2 v2)) with (num_rows v2) in Hsum.
  set (n0 := Z.to_nat (lp_batch p) `min` num_rows d) in *.
  assert (Hb0 : num_rows b = n0).
  { destruct vs as [|x l].
    - replace (sum_list (t_rows <$> (abs h3 <$> [b]))) with (num_rows b + 0) in Hsum by done.
      destruct (HL b eq_refl) as [_ ?]. unfold n0. lia.
    - specialize (HS 0 b eq_refl ltac:(cbn [length]; lia)).
      replace (sum_list (t_rows <$> (abs h3 <$> b :: x :: l))) with (num_rows b + sum_list (t_rows <$> (abs h3 <$> x :: l))) in Hsum by done. unfold n0. lia. }
  destruct (batch_steps_spec bl h3 p cols ks n0 Hkn (b :: vs) db st Hst) as (db' & E4 & HD').
  { rewrite Forall_lookup in FB |- *. intros i x Hx. destruct (FB i x Hx) as (? & ? & ?). split; [done|]. split; [done|]. split; [lia|].
    destruct TC as (_ & TC & _). rewrite Forall_fmap, Forall_lookup in TC. destruct (TC i x Hx) as [E _].
    rewrite <- elem_of_dom, E, C2, t_select_dom, elem_of_dom. done. }
  { intros x [= <-]. destruct HD as [->|HD]; [left; by split|]. rewrite Hb0. by apply HD. }
  rewrite (bind_eq _ _ _ _ _ E4). cbn [fst snd].
  (* the batches as parts of the rows *)
  set (yt := fun j => default f64_zero (t_floats T "_target" !! j)).
  set (L := (fun b => batch_data (abs h3 b) ks) <$> b :: vs).
  assert (HTC2 : t_concat (abs h3 <$> b :: vs) (abs h2 v2)) by done.
  assert (HokB : Forall t_ok (abs h3 <$> b :: vs)). { apply Forall_fmap. eapply Forall_impl; [exact FB|]. intros x (Wx & _). by apply abs_ok. }
  assert (FkS : Forall (fun k => is_Some (t_cols (abs h2 v2) !! k)) ks).
  { eapply Forall_impl; [exact Fk|]. intros k Hkk. cbv beta in Hkk |- *. by rewrite <- elem_of_dom, C2, t_select_dom, elem_of_dom. }
  assert (HtS : is_Some (t_cols (abs h2 v2) !! (KFloat, "_target"))) by (by rewrite <- elem_of_dom, C2, t_select_dom, elem_of_dom).
  assert (L1 : concat L.*1 = t_num_row f64_of_val T ks <$> q).
  { unfold L. rewrite <- list_fmap_compose. rewrite <- (select_rows f64_of_val ks q T Hok Fk Hqr).
    transitivity (t_num_rows f64_of_val (abs h2 v2) ks).
    - rewrite <- (t_concat_num_rows f64_of_val ks _ _ HokB HTC2 FkS). by rewrite <- list_fmap_compose.
    - unfold t_num_rows, t_num_row. change (t_rows (abs h2 v2)) with (num_rows v2). rewrite R2, C2. unfold t_select. cbn [t_rows]. by rewrite Hql. }
  assert (L2 : concat L.*2 = yt <$> q).
  { unfold L. rewrite <- list_fmap_compose. unfold yt. rewrite <- (select_floats "_target" q T Hok Ht Hqr).
    transitivity (t_floats (abs h2 v2) "_target"); [|unfold t_floats; by rewrite C2].
    symmetry. exact (concat_floats (abs h3) "_target" (b :: vs) (abs h2 v2) HTC2 HtS). }
  destruct (cut_parts (t_num_row f64_of_val T ks) yt L q) as (parts & Hparts & HLp); [|exact L1|exact L2|].
  { unfold L. apply Forall_fmap. rewrite Forall_lookup in FB |- *. intros i x Hx. destruct (FB i x Hx) as (Wx & _ & _). unfold compose, batch_data. cbn [fst snd].
    unfold t_num_rows. rewrite fmap_length, seq_length, floats_length; [done|by apply abs_ok|].
    destruct TC as (_ & TC & _). rewrite Forall_fmap, Forall_lookup in TC. destruct (TC i x Hx) as [E _].
    rewrite <- elem_of_dom, E, C2, t_select_dom, elem_of_dom. done. }
  assert (Hlen : forall i qq, parts !! i = Some qq -> exists x, (b :: vs) !! i = Some x /\ length qq = num_rows x).
  { intros i qq Hqq. apply (f_equal (fun l => l !! i)) in HLp. unfold L in HLp. rewrite !list_lookup_fmap, Hqq in HLp.
    destruct ((b :: vs) !! i) as [x|]; [|done]. exists x. split; [done|]. cbn in HLp. injection HLp as HLp _.
    apply (f_equal length) in HLp. unfold t_num_rows in HLp. rewrite !fmap_length, seq_length in HLp. done. }
  assert (Hpl : length parts = length (b :: vs)). { apply (f_equal length) in HLp. unfold L in HLp. by rewrite !fmap_length in HLp. }
  set (st1 := foldl (train_step (A:=f64_arith) (dot_t bl) (dot_n bl) (lp_lr p) (lp_momentum p) (lp_decay p)) st L).
  destruct (run_lengths bl (lp_lr p) (lp_momentum p) (lp_decay p) L st Hst) as [K1 K2].
  assert (X : ext h h3) by (eapply ext_trans; [exact X1|]; by eapply ext_trans).
  destruct (IH h3 db' st1) as (epochs & h' & E5 & X5 & Hl & HF).
  { by eapply ext_wf. } { rewrite <- HT. by apply ext_abs. } { etrans; [exact K2|]. symmetry. exact K1. }
  { right. destruct HD' as [?|[? _]]; done. }
  exists (parts :: epochs), h'. split; [|split; [by eapply ext_trans|split; [cbn; by rewrite Hl|]]].
  - etrans; [exact E5|]. cbn [concat]. rewrite fmap_app, foldl_app. unfold st1. rewrite HLp. done.
  - constructor; [|done]. split; [by rewrite Hparts|]. split.
    + intros i qq Hqq Hi. destruct (Hlen i qq Hqq) as (x & Hx & ->). specialize (HS i x Hx ltac:(lia)). lia.
    + intros qq Hqq. rewrite last_lookup in Hqq. destruct (Hlen _ qq Hqq) as (x & Hx & ->).
      destruct (HL x) as [? ?]; [|lia]. rewrite last_lookup, <- Hpl. done.
Qed.
(** No rows, or a wrong batch size. *)
Lemma epoch_loop_panic (p : lr_params f64_arith) d cols rnd rnds h st : wf h d -> num_rows d = 0 \/ (lp_batch p <= 0)%Z ->
  epoch_loop bl p d (rnd :: rnds) (new_dense cols) st h = Panic.
Proof.
  intros W Hbad. cbn [epoch_loop].
  destruct (shuffle_view_spec rnd h d W) as (q & v & h1 & Hq & _ & E1 & A1 & W1 & X1 & _). rewrite (bind_eq _ _ _ _ _ E1).
  assert (Hql : length q = num_rows d) by (apply Permutation_length in Hq; by rewrite seq_length in Hq).
  assert (Hv : num_rows v = num_rows d). { change (num_rows v) with (t_rows (abs h1 v)). by rewrite A1. }
  assert (H2 : exists v2 h2, (if lp_lowmem p then ret v else copy_df v) h1 = Ok (v2, h2) /\ wf h2 v2 /\ num_rows v2 = num_rows d).
  { destruct (lp_lowmem p).
    - exists v, h1. done.
    - destruct (copy_df_spec h1 v W1) as (v2 & h2 & E2 & X2 & W2 & _ & A2 & _). exists v2, h2. split; [done|]. split; [done|].
      change (num_rows v2) with (t_rows (abs h2 v2)). by rewrite A2. }
  destruct H2 as (v2 & h2 & E2 & W2 & R2). rewrite (bind_eq _ _ _ _ _ E2).
  destruct (decide (lp_batch p <= 0)%Z) as [Hb|Hb].
  - unfold bind at 1, split_view. by rewrite decide_True.
  - destruct (split_first h2 v2 (lp_batch p) W2 ltac:(lia)) as (x & vs & h3 & E3 & Wx & Hx & _). rewrite (bind_eq _ _ _ _ _ E3).
    specialize (Hx ltac:(lia)). unfold bind at 1. cbn [batch_steps]. unfold bind at 1. 
    pose proof (vec_dense_spec h3 x "_target" Wx) as EV. rewrite EV. destruct (t_cols (abs h3 x) !! (KFloat, "_target")); [|done].
    unfold bind at 1. pose proof (dense_first h3 x cols Wx) as D. destruct (num_keys (abs h3 x) cols); [|by rewrite D].
    rewrite decide_True in D by (by left). by rewrite D.
Qed.
End epochs.
