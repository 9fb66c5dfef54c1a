(** The experiment of examples/linreg.go: C90. *)
From Verif Require Import M_Example P_Check.
From Verif Require Export P_Example3.
From Verif Require Import P_View2 P_PrepMain P_AutoMain P_Auto6 P_Auto5 P_Auto4 P_Hash P_Json2 Spec_Json M_Example P_Check.
Local Open Scope nat_scope.

(** ** Names *)
Lemma new_not_target c i : onehot_name c i <> "_target" /\ missing_name c <> "_target".
Proof.
  unfold onehot_name, missing_name. assert (HL : forall a b : string, String.length (a +:+ b) = String.length a + String.length b).
  { intros a b. induction a as [|x a IH]; [done|]. simpl. f_equal. exact IH. }
  split; intros E; pose proof (f_equal String.length E) as EL; rewrite !HL in EL; simpl in EL; [|lia].
  destruct c as [|x c]; [done|]. simpl in EL. lia.
Qed.
Lemma prepared_from opt t0 n p t t' k c : auto_fitted opt t0 p -> has_inputs p t -> prepared_as n p t t' -> k = KFloat \/ k = KBool ->
  is_Some (t_cols t' !! (k, c)) -> is_Some (t_cols t !! (k, c)) \/ (k = KBool /\ exists e, ap_onehot p = Some e /\ c ∈ en_new e).
Proof.
  intros HA HI HP Hk Hc. set (t2 := prep_strings p (prep_floats n p t)) in *.
  assert (H2 : is_Some (t_cols t2 !! (k, c)) -> is_Some (t_cols t !! (k, c))).
  { unfold t2, prep_strings. destruct (ap_hash p) as [cols|] eqn:E; [|apply prep_floats_dom]. rewrite C24_hashed_columns_main.
    - destruct (decide _); [|apply prep_floats_dom]. destruct Hk as [-> | ->]; by intros [? ?].
    - intros c' Hc'. apply prep_floats_dom. destruct HI as (_ & _ & I3 & _). by eapply I3. }
  unfold prepared_as in HP. destruct (ap_onehot p) as [e|] eqn:EO; [|left; apply H2; by rewrite HP in Hc].
  destruct (decide (k = KBool /\ c ∈ en_new e)) as [[Hb Hn]|Hx]; [right; split; [done|by exists e]|]. left. apply H2.
  rewrite (ec_others _ _ _ HP) in Hc.
  - destruct (decide _); [by destruct Hc|done].
  - cbn. destruct (decide (k = KBool)); [right; naive_solver|by left].
Qed.
Lemma prepared_no_target opt t0 n p t t' k : auto_fitted opt t0 p -> has_inputs p t -> prepared_as n p t t' -> k = KFloat \/ k = KBool ->
  t_cols t !! (k, "_target") = None -> t_cols t' !! (k, "_target") = None.
Proof.
  intros HA HI HP Hk Hn. destruct (t_cols t' !! (k, "_target")) eqn:E; [|done]. exfalso.
  destruct (prepared_from opt t0 n p t t' k "_target" HA HI HP Hk ltac:(by eexists)) as [[x Hx]|(_ & e & EO & Hc)]; [by rewrite Hn in Hx|].
  pose proof (af_onehot _ _ _ HA) as H. rewrite EO in H. destruct H as (_ & t1 & HF & _). apply (ft_new _ _ _ HF) in Hc as (c & Hc & Hcr).
  destruct (created_names t1 e c _ HF Hc Hcr) as [Hx|[i Hx]]; symmetry in Hx; [by apply (proj2 (new_not_target c 0))|by apply (proj1 (new_not_target c i))].
Qed.
Lemma num_keys_header t u cols : (forall k, is_Some (t_cols t !! k) <-> is_Some (t_cols u !! k)) -> num_keys t cols = num_keys u cols.
Proof.
  intros H. unfold num_keys. induction cols as [|c cols IH]; [done|]. cbn. rewrite IH.
  assert (E : num_key t c = num_key u c) by (unfold num_key; rewrite !(decide_ext _ _ _ _ (H _)); done). by rewrite E.
Qed.

Lemma select_lookup ix t k : t_cols (t_select ix t) !! k = pick ix <$> t_cols t !! k.
Proof. unfold t_select. cbn [t_cols]. apply lookup_fmap. Qed.
Lemma select_None ix t k : t_cols t !! k = None -> t_cols (t_select ix t) !! k = None.
Proof. intros H. by rewrite select_lookup, H. Qed.
Section main.
Context {rt : GoRT} {jrt : JsonRT} (bl : blas f64_arith).
Context (order : gset string -> list string) (Ho : forall X, order X ≡ₚ elements X).
Context (ord : string -> bool -> gset Z -> list Z) (Hord : forall c b X, ord c b X ≡ₚ elements X).

Lemma reload_linreg reg h : exact_numbers -> linreg_nums is_f64 reg -> linreg_names reg ->
  match reload linreg_json linreg_of reg h with
  | Ok (r, h') => r = reg /\ h' = h /\ linreg_nums finite reg
  | Panic => ~ linreg_nums finite reg
  end.
Proof.
  intros HE H64 HN. destruct C88_marshal_main as (_ & _ & _ & _ & _ & HM). specialize (HM reg). unfold reload, bind, lift.
  destruct (marshal linreg_json reg) as [text|] eqn:Em; [|intros HF; apply HM in HF; by destruct HF].
  assert (HF : linreg_nums finite reg) by (apply HM; by eexists). pose proof (C88_linreg_main HE reg H64 HF HN) as HR. rewrite Em in HR. cbn in HR. by rewrite HR.
Qed.
Lemma reload_auto p h : exact_numbers -> auto_nums is_f64 p -> auto_names p ->
  match reload auto_json auto_of p h with
  | Ok (p', h') => h' = h /\ auto_nums finite p /\ forall order' d' h2, auto_transform order' p' d' h2 = auto_transform order' p d' h2
  | Panic => ~ auto_nums finite p
  end.
Proof.
  intros HE H64 HN. destruct C88_marshal_main as (_ & _ & _ & _ & HM & _). specialize (HM p). unfold reload, bind, lift.
  destruct (marshal auto_json p) as [text|] eqn:Em; [|intros HF; apply HM in HF; by destruct HF].
  assert (HF : auto_nums finite p) by (apply HM; by eexists). destruct (C88_auto_main HE p H64 HF HN) as (p' & HR & _ & HT). rewrite Em in HR. cbn in HR. rewrite HR.
  split; [done|]. split; [done|]. intros order' d' h2. apply HT.
Qed.

Lemma pick_take_perm (q : list nat) (l : list nat) : NoDup l -> q ≡ₚ seq 0 (length l) -> NoDup (pick q l).
Proof. intros Hnd Hq. assert (E : pick q l ≡ₚ l) by (etrans; [apply pick_perm, Hq|by rewrite pick_seq0]). by rewrite E. Qed.

Lemma C90_example_partial_main (rnd : nat -> nat) (norm : nat -> f64) (rnds : Z -> nat -> nat) (ratio : f64) (flag : bool) (target : string) (prm : lr_params f64_arith) (h : heap) (d : dframe) :
  exact_numbers -> blas_f64 bl -> params_f64 prm -> (forall i, is_f64 (norm i)) -> is_f64 ratio -> f64_isnan ratio = false ->
  wf h d -> NoDup (inds d) -> (Z.of_nat (num_rows d) <= 2 ^ 53)%Z ->
  unique_names (abs h d) -> strings_ok (abs h d) -> no_clash (abs h d) -> good_names (abs h d) -> good_floats (abs h d) ->
  is_Some (t_cols (abs h d) !! (KFloat, target)) -> (exists c, c <> target /\ is_Some (t_cols (abs h d) !! (KFloat, c))) ->
  target <> "_target" -> target <> "y_pred" -> t_cols (abs h d) !! (KFloat, "_target") = None -> t_cols (abs h d) !! (KBool, "_target") = None ->
  flag = true \/ (forall c, ~ categorical (abs h d) c) ->
  let t := abs h d in
  let opt := AutoOpt flag flag [target] in
  let m := test_rows (t_rows t) ratio in
  let n := t_rows t - m in
  match example bl order ord rnd norm rnds ratio flag flag target prm d h with
  | Ok ((e, w), h') => ~ bad_parameters t ratio prm n m /\ preserved h h' /\ wf h' w /\
      exists q r p reg a b ks t1 t2, q ≡ₚ seq 0 (t_rows t) /\ r ≡ₚ seq 0 m /\
        learned bl norm opt prm target (t_select (take n q) t) t1 p a b reg /\ auto_nums finite p /\ linreg_nums finite reg /\
        prepared_as once p (t_select (drop n q) t) t2 /\ num_keys t2 (lr_features reg) = Some ks /\
        abs h' w = t_insert (KFloat, "y_pred") (VFloat <$> predictions bl a b reg ks (t_select r t2)) (t_select r t2) /\
        e = mae_of f64_arith (pick (pick r (drop n q)) (t_floats t target)) (predictions bl a b reg ks (t_select r t2))
  | Panic => bad_parameters t ratio prm n m \/
      exists q p reg a b t1, q ≡ₚ seq 0 (t_rows t) /\ learned bl norm opt prm target (t_select (take n q) t) t1 p a b reg /\
        ~ (auto_nums finite p /\ linreg_nums finite reg)
  end.
Proof.
  intros HE Hbl Hprm Hnorm Hr64 Hrn W Hnd Hsz HU HS HN HGn HGf HT Hother Ht1 Ht2 Hf Hb Hflag t opt m n.
  (* shuffle *)
  destruct (shuffle_view_spec rnd h d W) as (q & v & h1 & Hq & _ & E1 & A1 & W1 & X1 & _ & V1 & I1 & _).
  unfold example. rewrite (bind_eq _ _ _ _ _ E1).
  assert (HR : t_rows t = num_rows d) by done. assert (HLq : length q = num_rows d) by (by rewrite Hq, seq_length).
  pose proof W as [nn Wn]. pose proof (wfn_inds_length _ _ _ Wn) as HLi.
  assert (Rv : num_rows v = num_rows d) by (apply (f_equal t_rows) in A1; cbn in A1; lia).
  assert (Iv : inds v = pick q (inds d)) by (unfold inds at 1; rewrite I1; unfold mk_ind, ilist; cbn; by rewrite firstn_all).
  assert (Hndv : NoDup (inds v)) by (rewrite Iv; apply pick_take_perm; [done|by rewrite HLi]).
  (* split *)
  pose proof (split_shuffled h1 v ratio W1 V1 ltac:(by rewrite Rv) Hr64 Hrn) as H2. unfold bind at 1.
  destruct (split_train_test v ratio h1) as [[[train test] h2]|]; [|left; unfold bad_parameters; clear -H2; tauto].
  destruct H2 as (R0 & R1 & Wtr & Wte & X2 & m' & Hm' & Em' & Itr & Ite & Atr & Ate). rewrite Rv in *.
  assert (Em : m' = m) by (unfold m, test_rows; rewrite HR, <- Em'; lia). subst m'. cbn [fst snd].
  assert (Hn : num_rows d - m = n) by (unfold n; by rewrite HR). rewrite Hn in *.
  assert (Hok : t_ok t) by (by apply abs_ok).
  assert (Hqlt : Forall (fun i => i < t_rows t) q) by (apply Forall_forall; intros i Hi; rewrite Hq in Hi; apply elem_of_seq in Hi; lia).
  assert (Atr' : abs h2 train = t_select (take n q) t).
  { rewrite Atr, A1. fold t. rewrite select_select; [|done|done|apply Forall_forall; intros i Hi; apply elem_of_seq in Hi; lia].
    f_equal. apply pick_slice_seq. lia. }
  assert (Ate' : abs h2 test = t_select (drop n q) t).
  { rewrite Ate, A1. fold t. rewrite select_select; [|done|done|apply Forall_forall; intros i Hi; apply elem_of_seq in Hi; lia].
    f_equal. rewrite pick_seq by lia. rewrite take_ge; [done|]. rewrite drop_length. lia. }
  pose proof Hndv as Hndv'. rewrite <- (take_drop n (inds v)) in Hndv'. apply NoDup_app in Hndv' as (Ntr & _ & Nte). rewrite <- Itr in Ntr. rewrite <- Ite in Nte.
  assert (Rtr : t_rows (abs h2 train) = n) by (rewrite Atr'; cbn; rewrite take_length; lia).
  assert (Rte : num_rows test = m) by (change (num_rows test) with (t_rows (abs h2 test)); rewrite Ate'; cbn; rewrite drop_length; lia).
  (* FitTransform *)
  pose proof (fit_transform_spec order Ho ord Hord opt h2 train Wtr) as H3. rewrite Rtr in H3. rewrite Atr' in H3.
  specialize (H3 (unique_select _ _ HU) (strings_select _ _ HS) (no_clash_select _ _ HN) (good_names_select _ _ HGn)).
  assert (Hopt : ao_imputing opt = true /\ ao_scaling opt = true \/ ao_imputing opt = false /\ ao_scaling opt = false /\ (forall c, ~ categorical (t_select (take n q) t) c)).
  { unfold opt. cbn [ao_imputing ao_scaling]. destruct flag; [by left|right]. split; [done|]. split; [done|]. intros c. rewrite categorical_select. destruct Hflag as [|Hflag]; [done|apply Hflag]. }
  specialize (H3 Hopt).
  fold opt. unfold bind at 1. destruct (auto_fit_transform order ord (new_auto opt) train h2) as [[[p u] h3]|].
  2:{ left. destruct H3 as [H3 [c Hc]]. apply categorical_select in Hc. unfold bad_parameters. right; right; left. eauto. }
  destruct H3 as (Wu & P3 & Iu & HA & Hnames & HP & Hz). cbn [fst snd].
  assert (HP1 : prepared_as once p (t_select (take n q) t) (abs h3 u)).
  { rewrite <- Atr' in HP |- *. by eapply prepared_once. }
  assert (HIn : has_inputs p (t_select (take n q) t)) by (eapply fitted_inputs; [done|by apply strings_select]).
  assert (H64p : auto_nums is_f64 p) by (eapply auto_fitted_nums; [done|by apply good_floats_select]).
  assert (Hnu : ~ float_used opt (t_select (take n q) t) target).
  { rewrite float_used_select. intros [_ [Hx|Hx]]; [apply Hx; by left|]. destruct Hother as (c & Hc & Hcs). specialize (Hx c Hcs). apply Hc.
    by apply elem_of_list_singleton in Hx. }
  assert (Hnc : ~ categorical (t_select (take n q) t) target).
  { rewrite categorical_select. unfold categorical. destruct (decide _); intros Hx.
    - by specialize (HU _ _ _ HT Hx).
    - by specialize (HU _ _ _ HT (proj1 HS _ Hx)). }
  assert (Hkeep : forall ix t', has_inputs p (t_select ix t) -> prepared_as once p (t_select ix t) t' -> t_cols t' !! (KFloat, target) = t_cols (t_select ix t) !! (KFloat, target)).
  { intros ix t' HIx HPx. eapply C58_excluded_partial_main; [exact HA|exact HPx| |done|by intros _|done].
    intros cols c E Hc. destruct HIx as (_ & _ & I3 & _). by eapply I3. }
  set (t1 := abs h3 u) in *. assert (Hok1 : t_ok t1) by (by apply abs_ok).
  assert (HG1 : good_floats t1) by (eapply good_prepared; [exact H64p|exact HIn|by apply good_floats_select|exact HP1]).
  assert (HT1 : is_Some (t_cols t1 !! (KFloat, target))) by (rewrite (Hkeep _ _ HIn HP1); by apply select_is_Some).
  assert (HN1 : t_cols t1 !! (KFloat, "_target") = None).
  { eapply prepared_no_target; [exact HA|exact HIn|exact HP1|by left|]. by apply select_None. }
  assert (HN2 : t_cols t1 !! (KBool, "_target") = None).
  { eapply prepared_no_target; [exact HA|exact HIn|exact HP1|by right|]. by apply select_None. }
  assert (R1' : t_rows t1 = n).
  { rewrite <- Rtr. change (num_rows u = num_rows train). pose proof Wu as [x Wx]. pose proof Wtr as [y Wy].
    rewrite <- (wfn_inds_length _ _ _ Wx), <- (wfn_inds_length _ _ _ Wy). by rewrite Iu. }
  (* Fit *)
  pose proof (fit_once order Ho bl norm rnds h3 u target prm Wu ltac:(by rewrite Iu) HT1 Ht1 HN1 HN2) as H4. cbv zeta in H4. fold t1 in H4. rewrite R1' in H4.
  assert (Hfeat : exists c, feature t1 target c).
  { destruct Hother as (c & Hc & Hcs). exists c. split; [done|]. left. unfold prepared_as in HP1.
    assert (Hcc : ~ categorical (t_select (take n q) t) c).
    { rewrite categorical_select. unfold categorical. destruct (decide _); intros Hx; [by specialize (HU _ _ _ Hcs Hx)|by specialize (HU _ _ _ Hcs (proj1 HS _ Hx))]. }
    assert (Hs2 : is_Some (t_cols (prep_strings p (prep_floats once p (t_select (take n q) t))) !! (KFloat, c))).
    { unfold prep_strings. pose proof (af_hash _ _ _ HA) as Bh. destruct (ap_hash p) as [cols|] eqn:EH.
      - rewrite C24_hashed_columns_main.
        + rewrite decide_False; [apply prep_floats_dom; by apply select_is_Some|]. intros Hx. apply Hcc. unfold categorical. destruct Bh as [B1 B2].
          rewrite decide_False by done. by rewrite B2, elem_of_elements in Hx.
        + intros c' Hc'. apply prep_floats_dom. destruct HIn as (_ & _ & I3 & _). by eapply I3.
      - apply prep_floats_dom. by apply select_is_Some. }
    destruct (ap_onehot p) as [e|] eqn:EO; [|by rewrite HP1]. rewrite (ec_others _ _ _ HP1) by (by left). rewrite decide_False; [done|].
    cbn. intros [Hx _]. apply Hcc. by apply (fitted_cats opt _ p e c HA EO). }
  unfold bind at 1. destruct (lr_fit bl order norm rnds u target prm h3) as [[reg h4]|].
  2:{ left. unfold bad_parameters. destruct H4 as [H4|H4]; [exfalso; destruct Hfeat as [c Hc]; by apply (H4 c)|]. clear -H4. tauto. }
  destruct H4 as (Hok4 & P4 & Hlen & a & b & Htr).
  assert (HL : learned bl norm opt prm target (t_select (take n q) t) t1 p a b reg) by (split; [done|by split]).
  assert (H64r : linreg_nums is_f64 reg) by (eapply trained_f64; [exact Hbl|exact Hprm|exact Hnorm|exact Hok1|exact HG1|exact Htr]).
  destruct Htr as (Ef & Esc & Nf & Hfe & ks & epochs & Hks & _).
  assert (Hnr : linreg_names reg).
  { split.
    - intros s Hs. rewrite Esc in Hs. injection Hs as <-. split; intros c [x Hx]; cbn in Hx; apply lookup_singleton_Some in Hx as [<- _]; apply sanitize_id; by vm_compute.
    - apply Forall_forall. intros c Hc. apply Hfe in Hc as [_ Hc].
      assert (Hcase : exists k, (k = KFloat \/ k = KBool) /\ is_Some (t_cols t1 !! (k, c))) by (destruct Hc; [exists KFloat|exists KBool]; split; [by left|done|by right|done]).
      destruct Hcase as (k & Hk & Hs).
      destruct (prepared_from opt _ once p _ t1 k c HA HIn HP1 Hk Hs) as [Hx|(_ & e & EO & Hx)].
      + apply (proj1 (select_is_Some _ _ _)) in Hx. exact (proj1 HGn k c Hx).
      + by apply (en_new_ok _ (an_onehot _ Hnames e EO)). }
  (* Marshal, Unmarshal *)
  pose proof (reload_linreg reg h4 HE H64r Hnr) as H5. unfold bind at 1. destruct (reload linreg_json linreg_of reg h4) as [[reg' h5]|].
  2:{ right. exists q, p, reg, a, b, t1. split; [by rewrite HR|]. split; [done|]. by intros [? ?]. }
  destruct H5 as (-> & -> & Hfr).
  pose proof (reload_auto p h4 HE H64p Hnames) as H6. unfold bind at 1. destruct (reload auto_json auto_of p h4) as [[p' h6]|].
  2:{ right. exists q, p, reg, a, b, t1. split; [by rewrite HR|]. split; [done|]. by intros [? ?]. }
  destruct H6 as (-> & Hfp & Htrans).
  (* TransformView of the test set *)
  assert (P24 : preserved h2 h4) by (by eapply preserved_trans).
  destruct (P24 test Wte) as [Wte4 Ate4]. rewrite Ate' in Ate4.
  assert (Hhead : same_header (t_select (take n q) t) (t_select (drop n q) t)) by (split; [intros k; by rewrite !select_is_Some|done]).
  assert (HIn2 : has_inputs p (t_select (drop n q) t)) by (by eapply has_inputs_header).
  destruct (transform_spec order Ho opt (t_select (take n q) t) p h4 test HA (no_clash_select _ _ HN) Wte4) as (w & h7 & E7 & W7 & P7 & I7 & HP7).
  { rewrite Ate4. by apply unique_select. }
  { rewrite Ate4. by apply strings_select. }
  { by rewrite Ate4. }
  assert (HP2 : prepared_as once p (t_select (drop n q) t) (abs h7 w)) by (rewrite <- Ate4; eapply prepared_once; [done|done|done]).
  set (t2 := abs h7 w) in *. unfold bind at 1. rewrite Htrans, E7. unfold bind at 1, lift at 1.
  assert (Iw : inds w = inds test) by (unfold inds; by rewrite I7).
  assert (Rw : num_rows w = m).
  { rewrite <- Rte. pose proof W7 as [x Wx]. pose proof Wte as [y Wy]. rewrite <- (wfn_inds_length _ _ _ Wx), <- (wfn_inds_length _ _ _ Wy). by rewrite Iw. }
  assert (HK2 : forall k, is_Some (t_cols t1 !! k) <-> is_Some (t_cols t2 !! k)) by (eapply prepared_header; [exact Hhead|exact HIn|exact HP1|exact HP2]).
  assert (HN7 : t_cols t2 !! (KFloat, "_target") = None).
  { destruct (t_cols t2 !! (KFloat, "_target")) as [x|] eqn:Ex; [|done]. destruct (proj2 (HK2 (KFloat, "_target"))) as [y Hy]; [by eexists|]. by rewrite HN1 in Hy. }
  assert (Hks2 : num_keys t2 (lr_features reg) = Some ks) by (rewrite <- Hks; symmetry; by apply num_keys_header).
  (* Predict *)
  unfold bind at 1.
  destruct (decide (m = 0)) as [Hm0|Hm0].
  { pose proof (C59_predict_partial_main bl order Ho h7 w reg a b "y_pred" W7 Esc ltac:(done) HN7) as H8. cbv zeta in H8.
    destruct (lr_predict bl order reg w "y_pred" h7) as [[x h8]|]; [exfalso; apply (proj1 H8); right; left; lia|]. left. unfold bad_parameters. by do 6 right. }
  assert (Hfne : lr_features reg <> []). { destruct Hfeat as [c Hc]. apply Hfe in Hc. intros E. rewrite E in Hc. by apply elem_of_nil in Hc. }
  destruct (C59_distinct_rows_partial_main bl order Ho h7 w reg a b "y_pred" ks W7 ltac:(by rewrite Iw) Esc ltac:(done) HN7 Hks2 ltac:(lia) Hfne Hlen)
    as (x & h8 & r & E8 & W8 & P8 & Hr & Ix & _ & A8). rewrite E8. fold t2 in A8. rewrite Rw in Hr.
  (* MAE *)
  assert (A8' : abs h8 x = t_insert (KFloat, "y_pred") (VFloat <$> predictions bl a b reg ks (t_select r t2)) (t_select r t2)).
  { rewrite A8. f_equal. unfold predictions. by rewrite <- list_fmap_compose. }
  assert (Fx : t_cols (abs h8 x) !! (KFloat, target) = pick r <$> (pick (drop n q) <$> t_cols t !! (KFloat, target))).
  { rewrite A8'. cbn. rewrite lookup_insert_ne by (intros [=]; by apply Ht2). rewrite (select_lookup r t2). f_equal. rewrite (Hkeep _ _ HIn2 HP2). apply select_lookup. }
  assert (Fy : t_cols (abs h8 x) !! (KFloat, "y_pred") = Some (VFloat <$> predictions bl a b reg ks (t_select r t2))) by (rewrite A8'; cbn; by rewrite lookup_insert).
  destruct (C61_on_dataframes_main h8 x target x "y_pred" W8 W8) as [_ H9].
  { rewrite Fx. destruct HT as [col Hcol]. fold t in Hcol. rewrite Hcol. by eexists. }
  { rewrite Fy. by eexists. }
  rewrite decide_True in H9 by done. unfold bind. rewrite H9. unfold ret.
  split.
  { unfold bad_parameters. intros Hbad. destruct Hbad as [Hx|[Hx|[[Hx [c Hc]]|[Hx|[Hx|[Hx|Hx]]]]]]; [by rewrite R0 in Hx|by rewrite R1 in Hx| | | | |done].
    - destruct Hz as [Hz|Hz]; [done|]. apply (Hz c). by apply categorical_select.
    - apply Hok4. tauto.
    - apply Hok4. tauto.
    - apply Hok4. tauto. }
  split.
  { eapply preserved_trans; [apply ext_preserved, X1|]. eapply preserved_trans; [apply ext_preserved, X2|]. eapply preserved_trans; [exact P24|].
    eapply preserved_trans; [exact P7|exact P8]. }
  split; [done|]. exists q, r, p, reg, a, b, ks, t1, t2. split; [by rewrite HR|]. split; [done|]. split; [done|]. do 2 (split; [done|]). split; [done|]. split; [done|].
  split; [exact A8'|].
  assert (Fx' : t_floats (abs h8 x) target = pick (pick r (drop n q)) (t_floats t target)).
  { unfold t_floats. rewrite Fx. destruct HT as [col Hcol]. fold t in Hcol. rewrite Hcol. cbn. rewrite !pick_fmap. f_equal.
    rewrite pick_pick; [done|]. destruct (Hok _ _ Hcol) as [-> _]. by apply Forall_drop. }
  assert (Fy' : t_floats (abs h8 x) "y_pred" = predictions bl a b reg ks (t_select r t2)).
  { unfold t_floats. rewrite Fy. cbn. rewrite <- list_fmap_compose. apply list_fmap_id. }
  by rewrite Fx', Fy'.
Qed.
(** The two flags have to be the same. *)
Lemma C90_flags_main (rnd : nat -> nat) (norm : nat -> f64) (rnds : Z -> nat -> nat) (ratio : f64) (imp sc : bool) (target : string) (prm : lr_params f64_arith) (h : heap) (d : dframe) :
  wf h d -> strings_ok (abs h d) -> (Z.of_nat (num_rows d) <= 2 ^ 53)%Z -> is_f64 ratio -> f64_isnan ratio = false ->
  imp <> sc \/ imp = false /\ sc = false /\ (exists c, categorical (abs h d) c) ->
  example bl order ord rnd norm rnds ratio imp sc target prm d h = Panic.
Proof.
  intros W HS Hsz Hr64 Hrn Hflag. destruct (shuffle_view_spec rnd h d W) as (q & v & h1 & Hq & _ & E1 & A1 & W1 & X1 & _ & V1 & I1 & _).
  unfold example. rewrite (bind_eq _ _ _ _ _ E1). assert (HLq : length q = num_rows d) by (by rewrite Hq, seq_length).
  assert (Rv : num_rows v = num_rows d) by (apply (f_equal t_rows) in A1; cbn in A1; lia).
  pose proof (split_shuffled h1 v ratio W1 V1 ltac:(by rewrite Rv) Hr64 Hrn) as H2. unfold bind at 1.
  destruct (split_train_test v ratio h1) as [[[train test] h2]|]; [|done]. destruct H2 as (_ & _ & Wtr & _ & _ & m & _ & _ & _ & _ & Atr & _). cbn [fst snd].
  unfold bind at 1. rewrite (C58_fit_transform_panics_main order Ho ord Hord); [done|done| |].
  - rewrite Atr, A1. by apply strings_select, strings_select.
  - rewrite Atr, A1. cbn [ao_imputing ao_scaling]. destruct Hflag as [Hflag|(F1 & F2 & c & Hc)]; [by left|right]. split; [done|]. split; [done|]. exists c.
    by rewrite !categorical_select.
Qed.
End main.

(** ** Concrete cases *)
Lemma fbl_f64 : blas_f64 fbl.
Proof.
  assert (H : forall l : list (f64 * f64), Forall (fun p => is_f64 p.1 /\ is_f64 p.2) l -> forall s, is_f64 s -> is_f64 (foldl (fun s p => f64_add s (f64_mul p.1 p.2)) s l)).
  { induction 1 as [|p l [H1 H2] H IH]; intros s Hs; [done|]. cbn. apply IH, is_f64_add; [done|]. by apply is_f64_mul. }
  intros xs ys Hx Hy. assert (HZ : Forall (fun p => is_f64 p.1 /\ is_f64 p.2) (zip xs ys)).
  { revert ys Hy. induction Hx as [|x xs Hx Hxs IH]; intros [|y ys] Hy; cbn; try constructor.
    - apply Forall_cons in Hy as [Hy _]. done.
    - apply IH. by apply Forall_cons in Hy as [_ Hy]. }
  split; by apply H.
Qed.
Section wit.
Existing Instance ex_rt.
Existing Instance ex_jrt.
Definition we_frame : dframe * heap := run_df (let* r := new_raw in
  let* r := b_add KFloat r "x" (VFloat <$> [fz 1; fz 2; fz 4; fz 3]) in
  let* r := b_add KFloat r "y" (VFloat <$> [fz 3; fz 5; fz 9; fz 8]) in
  let* r := b_add KObj r "s" [VObj (OStr "u"); VObj (OStr "v"); VObj (OStr "u"); VObj ONil] in
  let* r := b_mark r "s" in to_dataframe r) heap0.
Definition we_run (target : string) (x : dframe * heap) : res (f64 * dframe * heap) :=
  example fbl elts ord0 (fun i => i / 2) (fun _ => f64_one) (fun _ _ => 0) f_half true true target lw_params x.1 x.2.
Definition we_res (target : string) (x : dframe * heap) : f64 * dframe * heap := match we_run target x with Ok r => r | Panic => (f64_zero, dummy, heap0) end.
Definition we := we_res "y" we_frame.
Definition we_t : table := abs we_frame.2 we_frame.1.
Lemma we_ok target x : is_ok (we_run target x) = true -> we_run target x = Ok (we_res target x).
Proof. unfold we_res. by destruct (we_run target x). Qed.
Lemma C90_check_main : exact_numbers /\ blas_f64 fbl /\ params_f64 lw_params /\ is_f64 f_half /\ f64_isnan f_half = false /\
  wf we_frame.2 we_frame.1 /\ NoDup (inds we_frame.1) /\ unique_names we_t /\ strings_ok we_t /\ no_clash we_t /\ good_names we_t /\ good_floats we_t /\
  is_Some (t_cols we_t !! (KFloat, "y")) /\ is_Some (t_cols we_t !! (KFloat, "x")) /\
  t_cols we_t !! (KFloat, "_target") = None /\ t_cols we_t !! (KBool, "_target") = None /\
  we_run "y" we_frame = Ok we /\ test_rows 4 f_half = 2 /\
  t_floats (abs we.2 we.1.2) "y" = [fz 5; fz 8] /\ length (t_floats (abs we.2 we.1.2) "y_pred") = 2 /\
  we.1.1 = mae_of f64_arith [fz 5; fz 8] (t_floats (abs we.2 we.1.2) "y_pred") /\ f64_lt f64_zero we.1.1 = true.
Proof.
  assert (HS : t_strs we_t = {["s"]}) by (apply (bool_decide_unpack _); by vm_compute).
  assert (Hne : t_strs we_t <> ∅) by (rewrite HS; apply non_empty_singleton_L).
  split; [exact toy_exact|]. split; [exact fbl_f64|].
  split; [split; [|split]; by vm_compute|]. split; [by vm_compute|]. split; [by vm_compute|].
  split; [apply (wf_check_sound _ _ 4); by vm_compute|]. split; [apply (bool_decide_unpack _); by vm_compute|].
  split; [apply unique_check_sound; by vm_compute|]. split.
  { split; [intros c; rewrite HS, elem_of_singleton; intros ->; apply (bool_decide_unpack _); by vm_compute|].
    right. exists (KFloat, "x"). split; [apply (bool_decide_unpack _); by vm_compute|]. rewrite HS. by intros ?%elem_of_singleton. }
  split. { apply (no_clash_one _ "s"). intros c. unfold categorical. rewrite decide_False by done. rewrite HS. by intros ?%elem_of_singleton. }
  destruct (good_check_sound we_t) as [G1 G2]; [by vm_compute|]. split; [done|]. split; [done|].
  do 2 (split; [apply (bool_decide_unpack _); by vm_compute|]). do 2 (split; [by vm_compute|]).
  split; [apply we_ok; by vm_compute|]. split_and!; by vm_compute.
Qed.
(** The target is the only float column: it is prepared like a feature, and the
    error is that of the prepared target. *)
Definition we_one : dframe * heap := run_df (let* r := new_raw in
  let* r := b_add KFloat r "y" (VFloat <$> [fz 3; fz 5; fz 9; fz 8]) in
  let* r := b_add KObj r "s" [VObj (OStr "u"); VObj (OStr "v"); VObj (OStr "u"); VObj ONil] in
  let* r := b_mark r "s" in to_dataframe r) heap0.
Lemma C90_only_target_refuted_main : exists (h : heap) (d : dframe) (e : f64) (w : dframe) (h' : heap), wf h d /\
  example fbl elts ord0 (fun i => i / 2) (fun _ => f64_one) (fun _ _ => 0) f_half true true "y" lw_params d h = Ok ((e, w), h') /\
  forall x, x ∈ t_floats (abs h' w) "y" -> x ∉ t_floats (abs h d) "y".
Proof.
  exists we_one.2, we_one.1, (we_res "y" we_one).1.1, (we_res "y" we_one).1.2, (we_res "y" we_one).2.
  split; [apply (wf_check_sound _ _ 4); by vm_compute|]. split.
  - pose proof (we_ok "y" we_one ltac:(by vm_compute)) as H. unfold we_run at 1 in H. rewrite H. by destruct (we_res "y" we_one) as [[? ?] ?].
  - assert (H : Forall (fun x => x ∉ t_floats (abs we_one.2 we_one.1) "y") (t_floats (abs (we_res "y" we_one).2 (we_res "y" we_one).1.2) "y")).
    { apply (bool_decide_unpack _). by vm_compute. }
    rewrite Forall_forall in H. exact H.
Qed.
(** A target called "y_pred" is overwritten by the predictions: no error. *)
Definition we_name : dframe * heap := run_df (let* r := new_raw in
  let* r := b_add KFloat r "x" (VFloat <$> [fz 1; fz 2; fz 4; fz 3]) in
  let* r := b_add KFloat r "y_pred" (VFloat <$> [fz 3; fz 5; fz 9; fz 8]) in to_dataframe r) heap0.
Lemma C90_target_name_refuted_main : exists (h : heap) (d : dframe) (e : f64) (w : dframe) (h' : heap), wf h d /\
  example fbl elts ord0 (fun i => i / 2) (fun _ => f64_one) (fun _ _ => 0) f_half true true "y_pred" lw_params d h = Ok ((e, w), h') /\
  e = f64_zero /\ forall x, x ∈ t_floats (abs h' w) "y_pred" -> x ∉ t_floats (abs h d) "y_pred".
Proof.
  exists we_name.2, we_name.1, (we_res "y_pred" we_name).1.1, (we_res "y_pred" we_name).1.2, (we_res "y_pred" we_name).2.
  split; [apply (wf_check_sound _ _ 4); by vm_compute|]. split; [|split; [by vm_compute|]].
  - pose proof (we_ok "y_pred" we_name ltac:(by vm_compute)) as H. unfold we_run at 1 in H. rewrite H. by destruct (we_res "y_pred" we_name) as [[? ?] ?].
  - assert (H : Forall (fun x => x ∉ t_floats (abs we_name.2 we_name.1) "y_pred") (t_floats (abs (we_res "y_pred" we_name).2 (we_res "y_pred" we_name).1.2) "y_pred")).
    { apply (bool_decide_unpack _). by vm_compute. }
    rewrite Forall_forall in H. exact H.
Qed.
End wit.
