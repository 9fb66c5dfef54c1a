(** C112: strings made into boolean columns by HashEncoder and OneHotEncoder,
    as in preprocessing/README.md, "Vectorization of categorical features". *)
From Verif Require Export P_OneHotMain P_PrepMain.
From stdpp Require Import strings list.
From Verif Require Import Spec_OneHot P_Base P_Check.

(** The number that stands for a string. *)
Definition string_code (s : string) : Z := (spec_fnv1a s mod (2 ^ 63 - 1))%Z.
(** String [s] occurs in column [c]; a missing string does. *)
Definition seen (t : table) (c s : string) : Prop := VObj (OStr s) ∈ default [] (t_cols t !! (KObj, c)).
Definition seen_nil (t : table) (c : string) : Prop := VObj ONil ∈ default [] (t_cols t !! (KObj, c)).
(** Rows [i] and [j] have the same flags for column [c]. *)
Definition same_flags (e : encoder) (c : string) (t : table) (i j : nat) : Prop :=
  forall n, created e c n -> t_cell t (KBool, n) i = t_cell t (KBool, n) j.

Lemma string_code_range s : (0 <= string_code s < 2 ^ 63 - 1)%Z.
Proof. apply Z.mod_pos_bound. lia. Qed.
Lemma string_code_nonneg s : string_code s <> (-1)%Z.
Proof. pose proof (string_code_range s). lia. Qed.

Section main.
Context {rt : GoRT}.
(** Both encoders are fitted to [train], in memory [h0]; then [d], in memory
    [h], is transformed into [w], in memory [h']. *)
Definition vectorized (order : gset string -> list string) ord (opt : oh_opt) (train : dframe) (h0 : heap)
  (d : dframe) (h : heap) (e : encoder) (w : dframe) (h' : heap) : Prop :=
  exists cols v0 h1 h2 v h3,
    hash_encoder_fit order train h0 = Ok (cols, h0) /\ hash_encoder_transform cols train h0 = Ok (v0, h1) /\
    oh_fit order ord (oh_fix opt) v0 h1 = Ok (e, h2) /\
    hash_encoder_transform cols d h = Ok (v, h3) /\ drop_safe e (abs h3 v) /\ oh_transform e v h3 = Ok (Some w, h').

(** The int columns after hashing. *)
Lemma hashed_ints (t0 t t' : table) (S : gset string) c :
  (forall k c, t_cols t' !! (k, c) =
      if decide (c ∈ S) then match k with KInt => fmap spec_hash <$> t_cols t !! (KObj, c) | _ => None end
      else t_cols t !! (k, c)) -> c ∈ S ->
  t_ints t' c = (fun v => the_int (spec_hash v)) <$> default [] (t_cols t !! (KObj, c)).
Proof.
  intros H Hc. unfold t_ints. rewrite H. rewrite decide_True by done.
  destruct (t_cols t !! (KObj, c)); simpl; [|done]. by rewrite <- list_fmap_compose.
Qed.

(** What the flags of a row are. *)
Lemma vector_flags order (Horder : forall X, order X ≡ₚ elements X) ord (Hord : forall c b X, ord c b X ≡ₚ elements X)
  opt train h0 d h e w h' :
  wf h0 train -> wf h d ->
  (forall c, c ∈ t_strs (abs h0 train) -> is_Some (t_cols (abs h0 train) !! (KObj, c)) /\ is_Some (t_cols (abs h d) !! (KObj, c))) ->
  (exists k, is_Some (t_cols (abs h0 train) !! k) /\ k.2 ∉ t_strs (abs h0 train)) ->
  (exists k, is_Some (t_cols (abs h d) !! k) /\ k.2 ∉ t_strs (abs h0 train)) ->
  vectorized order ord opt train h0 d h e w h' ->
  forall c, c ∈ t_strs (abs h0 train) ->
  exists toNew fb0 fb1, fitted_col (oh_fix opt) c ((fun v => the_int (spec_hash v)) <$> default [] (t_cols (abs h0 train) !! (KObj, c))) toNew fb0 fb1 /\
  forall i x, t_cell (abs h d) (KObj, c) i = Some x ->
  exists n, created e c n /\ t_cell (abs h' w) (KBool, n) i = Some (VBool true) /\
    (forall n', created e c n' -> n' <> n -> t_cell (abs h' w) (KBool, n') i = Some (VBool false)) /\
    let z := the_int (spec_hash x) in
    ((z = -1)%Z /\ n = fb0 \/ z <> (-1)%Z /\ toNew !! z = Some n \/ z <> (-1)%Z /\ toNew !! z = None /\ n = fb1).
Proof.
  intros W0 W Hs Hk0 Hk (cols & v0 & h1 & h2 & v & h3 & Ef & Et0 & Eo & Et & Hsafe & Ew) c Hc.
  destruct (C73_hash_encoder_partial_main order h0 h0 train train W0 W0 Horder) as (cols1 & v1 & h4 & E1 & _ & E2 & Wv0 & _ & _ & HC0); [intros ? Hx; apply (Hs _ Hx)|done|].
  rewrite Ef in E1. injection E1 as <-. rewrite Et0 in E2. injection E2 as <- <-.
  destruct (C73_hash_encoder_partial_main order h0 h train d W0 W Horder) as (cols1 & v1 & h4 & E1 & _ & E2 & Wv & _ & _ & HC); [intros ? Hx; apply (Hs _ Hx)|done|].
  rewrite Ef in E1. injection E1 as <-. rewrite Et in E2. injection E2 as <- <-.
  pose proof (C55_fit_main order Horder ord Hord opt v0 h1 Wv0) as HF. rewrite Eo in HF. destruct HF as [_ HF].
  assert (Hce : c ∈ en_cats e).
  { apply (ft_cats _ _ _ HF). rewrite HC0. rewrite decide_True by done. destruct (proj1 (Hs _ Hc)) as [l ->]. by eexists. }
  destruct (ft_col _ _ _ HF _ Hce) as (toNew & fb0 & fb1 & Em & Eb & Hcol).
  rewrite (hashed_ints (abs h0 train) (abs h0 train) _ _ c HC0 Hc) in Hcol.
  exists toNew, fb0, fb1. split; [exact Hcol|]. intros i x Hx.
  assert (Hz : t_ints (abs h3 v) c !! i = Some (the_int (spec_hash x))).
  { rewrite (hashed_ints (abs h d) (abs h d) _ _ c HC Hc). unfold t_cell in Hx. destruct (t_cols (abs h d) !! (KObj, c)) as [l|]; [|done]. simpl in *. rewrite list_lookup_fmap, Hx. done. }
  destruct (C55_one_flag_main order Horder ord Hord opt v0 h1 e h2 v w h3 h' Wv0 Eo Wv Hsafe Ew c i _ Hce Hz) as (n & Hn & Hfl & Ht & Ho).
  exists n. split; [done|]. split; [done|]. split; [done|].
  destruct Hfl as (m & f0 & f1 & Em' & Eb' & Hfl). rewrite Em in Em'. rewrite Eb in Eb'. injection Em' as <-. injection Eb' as <- <-. exact Hfl.
Qed.

Lemma seen_cat t c s : seen t c s -> is_cat ((fun v => the_int (spec_hash v)) <$> default [] (t_cols t !! (KObj, c))) (string_code s).
Proof. intros H. split; [|apply string_code_nonneg]. apply elem_of_list_fmap. by exists (VObj (OStr s)). Qed.

(** Same flags: the same string, but for collisions. *)
Lemma C112_separates_main order (Horder : forall X, order X ≡ₚ elements X) ord (Hord : forall c b X, ord c b X ≡ₚ elements X)
  opt train h0 d h e w h' :
  wf h0 train -> wf h d ->
  (forall c, c ∈ t_strs (abs h0 train) -> is_Some (t_cols (abs h0 train) !! (KObj, c)) /\ is_Some (t_cols (abs h d) !! (KObj, c))) ->
  (exists k, is_Some (t_cols (abs h0 train) !! k) /\ k.2 ∉ t_strs (abs h0 train)) ->
  (exists k, is_Some (t_cols (abs h d) !! k) /\ k.2 ∉ t_strs (abs h0 train)) ->
  vectorized order ord opt train h0 d h e w h' ->
  forall c i j s1 s2, c ∈ t_strs (abs h0 train) -> seen (abs h0 train) c s1 -> seen (abs h0 train) c s2 ->
  t_cell (abs h d) (KObj, c) i = Some (VObj (OStr s1)) -> t_cell (abs h d) (KObj, c) j = Some (VObj (OStr s2)) ->
  (same_flags e c (abs h' w) i j <-> string_code s1 = string_code s2).
Proof.
  intros W0 W Hs Hk0 Hk HV c i j s1 s2 Hc Hs1 Hs2 Hi Hj.
  destruct (vector_flags order Horder ord Hord opt train h0 d h e w h' W0 W Hs Hk0 Hk HV c Hc) as (toNew & fb0 & fb1 & HF & HR).
  destruct (HR _ _ Hi) as (n1 & Hn1 & Ht1 & Ho1 & Hz1). destruct (HR _ _ Hj) as (n2 & Hn2 & Ht2 & Ho2 & Hz2).
  change (the_int (spec_hash (VObj (OStr s1)))) with (string_code s1) in Hz1. change (the_int (spec_hash (VObj (OStr s2)))) with (string_code s2) in Hz2. cbv zeta in Hz1, Hz2.
  pose proof (string_code_nonneg s1) as Hm1. pose proof (string_code_nonneg s2) as Hm2.
  assert (E1 : toNew !! string_code s1 = Some n1).
  { destruct (proj2 (fc_cats _ _ _ _ _ _ HF _) (seen_cat _ _ _ Hs1)) as [n E]. destruct Hz1 as [[? _]|[[_ ?]|(_ & ? & _)]]; [done|done|congruence]. }
  assert (E2 : toNew !! string_code s2 = Some n2).
  { destruct (proj2 (fc_cats _ _ _ _ _ _ HF _) (seen_cat _ _ _ Hs2)) as [n E]. destruct Hz2 as [[? _]|[[_ ?]|(_ & ? & _)]]; [done|done|congruence]. }
  split.
  - intros HE. apply (fc_inj _ _ _ _ _ _ HF _ _ n1); [done|]. destruct (decide (n1 = n2)) as [->|Hne]; [done|].
    specialize (HE _ Hn1). rewrite Ht1, (Ho2 _ Hn1 Hne) in HE. discriminate HE.
  - intros HE n Hn. assert (n1 = n2) as -> by congruence. destruct (decide (n = n2)) as [->|Hne]; [congruence|]. by rewrite (Ho1 _ Hn Hne), (Ho2 _ Hn Hne).
Qed.

(** Missing strings have flags of their own when the policy asks for them. *)
Lemma C112_missing_main order (Horder : forall X, order X ≡ₚ elements X) ord (Hord : forall c b X, ord c b X ≡ₚ elements X)
  opt train h0 d h e w h' :
  wf h0 train -> wf h d ->
  (forall c, c ∈ t_strs (abs h0 train) -> is_Some (t_cols (abs h0 train) !! (KObj, c)) /\ is_Some (t_cols (abs h d) !! (KObj, c))) ->
  (exists k, is_Some (t_cols (abs h0 train) !! k) /\ k.2 ∉ t_strs (abs h0 train)) ->
  (exists k, is_Some (t_cols (abs h d) !! k) /\ k.2 ∉ t_strs (abs h0 train)) ->
  vectorized order ord opt train h0 d h e w h' ->
  forall c i j s, c ∈ t_strs (abs h0 train) -> seen (abs h0 train) c s ->
  oh_missing (oh_fix opt) = PSeparate \/ oh_missing (oh_fix opt) = PIfSeen /\ seen_nil (abs h0 train) c ->
  t_cell (abs h d) (KObj, c) i = Some (VObj (OStr s)) -> t_cell (abs h d) (KObj, c) j = Some (VObj ONil) ->
  ~ same_flags e c (abs h' w) i j.
Proof.
  intros W0 W Hs Hk0 Hk HV c i j s Hc Hs1 Hp Hi Hj HE.
  destruct (vector_flags order Horder ord Hord opt train h0 d h e w h' W0 W Hs Hk0 Hk HV c Hc) as (toNew & fb0 & fb1 & HF & HR).
  destruct (HR _ _ Hi) as (n1 & Hn1 & Ht1 & Ho1 & Hz1). destruct (HR _ _ Hj) as (n2 & Hn2 & Ht2 & Ho2 & Hz2).
  change (the_int (spec_hash (VObj (OStr s)))) with (string_code s) in Hz1. cbv zeta in Hz1, Hz2. simpl in Hz2.
  pose proof (string_code_nonneg s) as Hm1.
  assert (E1 : toNew !! string_code s = Some n1).
  { destruct (proj2 (fc_cats _ _ _ _ _ _ HF _) (seen_cat _ _ _ Hs1)) as [n E]. destruct Hz1 as [[? _]|[[_ ?]|(_ & ? & _)]]; [done|done|congruence]. }
  assert (E2 : n2 = missing_name c).
  { destruct Hz2 as [[_ ->]|[[? _]|(? & _)]]; [|done|done]. pose proof (fc_fb0 _ _ _ _ _ _ HF) as HB. unfold fallback0_ok in HB.
    destruct Hp as [Hp|[Hp Hnil]]; rewrite Hp in HB; [done|]. cbv beta iota in HB. rewrite decide_True in HB; [done|]. apply elem_of_list_fmap. by exists (VObj ONil). }
  destruct (fc_names _ _ _ _ _ _ HF _ _ E1) as (k & -> & _).
  assert (Hne : onehot_name c k <> n2) by (rewrite E2; apply onehot_missing).
  specialize (HE _ Hn1). rewrite Ht1, (Ho2 _ Hn1 Hne) in HE. discriminate HE.
Qed.
(** So have strings that are not in the training data. *)
Lemma C112_unknown_main order (Horder : forall X, order X ≡ₚ elements X) ord (Hord : forall c b X, ord c b X ≡ₚ elements X)
  opt train h0 d h e w h' :
  wf h0 train -> wf h d ->
  (forall c, c ∈ t_strs (abs h0 train) -> is_Some (t_cols (abs h0 train) !! (KObj, c)) /\ is_Some (t_cols (abs h d) !! (KObj, c))) ->
  (exists k, is_Some (t_cols (abs h0 train) !! k) /\ k.2 ∉ t_strs (abs h0 train)) ->
  (exists k, is_Some (t_cols (abs h d) !! k) /\ k.2 ∉ t_strs (abs h0 train)) ->
  vectorized order ord opt train h0 d h e w h' ->
  forall c i j s x, c ∈ t_strs (abs h0 train) -> seen (abs h0 train) c s -> oh_unknown (oh_fix opt) = PSeparate ->
  (forall s', seen (abs h0 train) c s' -> string_code s' <> string_code x) ->
  t_cell (abs h d) (KObj, c) i = Some (VObj (OStr s)) -> t_cell (abs h d) (KObj, c) j = Some (VObj (OStr x)) ->
  ~ same_flags e c (abs h' w) i j.
Proof.
  intros W0 W Hs Hk0 Hk HV c i j s x Hc Hs1 Hp Hx Hi Hj HE.
  destruct (vector_flags order Horder ord Hord opt train h0 d h e w h' W0 W Hs Hk0 Hk HV c Hc) as (toNew & fb0 & fb1 & HF & HR).
  destruct (HR _ _ Hi) as (n1 & Hn1 & Ht1 & Ho1 & Hz1). destruct (HR _ _ Hj) as (n2 & Hn2 & Ht2 & Ho2 & Hz2).
  change (the_int (spec_hash (VObj (OStr s)))) with (string_code s) in Hz1. change (the_int (spec_hash (VObj (OStr x)))) with (string_code x) in Hz2. cbv zeta in Hz1, Hz2.
  pose proof (string_code_nonneg s) as Hm1. pose proof (string_code_nonneg x) as Hm2.
  assert (E1 : toNew !! string_code s = Some n1).
  { destruct (proj2 (fc_cats _ _ _ _ _ _ HF _) (seen_cat _ _ _ Hs1)) as [n E]. destruct Hz1 as [[? _]|[[_ ?]|(_ & ? & _)]]; [done|done|congruence]. }
  assert (E2 : n2 = unk_name c).
  { destruct Hz2 as [[? _]|[[_ E]|(_ & _ & ->)]]; [done| |].
    - exfalso. destruct (proj1 (fc_cats _ _ _ _ _ _ HF (string_code x)) (mk_is_Some _ _ E)) as [Hin _].
      apply elem_of_list_fmap in Hin as (v & Ev & Hv). destruct v as [o| | |]; try (simpl in Ev; congruence).
      destruct o as [|s'|]; try (simpl in Ev; congruence). apply (Hx s' Hv). symmetry. exact Ev.
    - pose proof (fc_fb1 _ _ _ _ _ _ HF) as HB. unfold fallback1_ok in HB. by rewrite Hp in HB. }
  destruct (fc_names _ _ _ _ _ _ HF _ _ E1) as (k & -> & _).
  assert (Hne : onehot_name c k <> n2) by (rewrite E2; apply onehot_unk).
  specialize (HE _ Hn1). rewrite Ht1, (Ho2 _ Hn1 Hne) in HE. discriminate HE.
Qed.
End main.

(** ** A concrete case *)
Section wit.
Existing Instance ex_rt.
(** Fitted to ex_d, whose strings are x, nil, yy, x. *)
Definition vt_build : M dframe :=
  let* r := new_raw in
  let* r := b_add KInt r "a" [VInt 5; VInt 5; VInt 3; VInt 7; VInt 1] in
  let* r := b_add KObj r "s" [VObj (OStr "yy"); VObj (OStr "x"); VObj ONil; VObj (OStr "yy"); VObj (OStr "zz")] in
  let* r := b_mark r "s" in
  to_dataframe r.
Definition vt := run_df vt_build heap0.
Definition vt_cols : list string := ["s"].
Definition vt_v0 := run_df (hash_encoder_transform vt_cols ex_d) ex_h.
Definition vt_enc := run_ohfit w_opt vt_v0.
Definition vt_v := run_df (hash_encoder_transform vt_cols vt.1) vt.2.
Definition vt_w := default vt (run_oh vt_enc vt_v).
Lemma C112_check_main : wf ex_h ex_d /\ wf vt.2 vt.1 /\
  (forall c, c ∈ t_strs (abs ex_h ex_d) -> is_Some (t_cols (abs ex_h ex_d) !! (KObj, c)) /\ is_Some (t_cols (abs vt.2 vt.1) !! (KObj, c))) /\
  (exists k, is_Some (t_cols (abs ex_h ex_d) !! k) /\ k.2 ∉ t_strs (abs ex_h ex_d)) /\
  (exists k, is_Some (t_cols (abs vt.2 vt.1) !! k) /\ k.2 ∉ t_strs (abs ex_h ex_d)) /\
  vectorized elts ord0 w_opt ex_d ex_h vt.1 vt.2 vt_enc vt_w.1 vt_w.2 /\
  "s" ∈ t_strs (abs ex_h ex_d) /\ seen (abs ex_h ex_d) "s" "x" /\ seen (abs ex_h ex_d) "s" "yy" /\ seen_nil (abs ex_h ex_d) "s" /\
  (string_code "x" <> string_code "yy") /\
  show KBool "s_onehot0" vt_w.2 vt_w.1 = Some (VBool <$> [false; true; false; false; false]) /\
  show KBool "s_onehot1" vt_w.2 vt_w.1 = Some (VBool <$> [true; false; false; true; false]) /\
  show KBool "s_missing" vt_w.2 vt_w.1 = Some (VBool <$> [false; false; true; false; false]) /\
  show KBool "s_unk" vt_w.2 vt_w.1 = Some (VBool <$> [false; false; false; false; true]).
Proof.
  assert (HS : t_strs (abs ex_h ex_d) = {["s"]}) by (apply (bool_decide_unpack _); by vm_compute).
  split; [exact ex_wf|]. split; [apply (wf_check_sound _ _ 5); by vm_compute|].
  split. { intros c. rewrite HS, elem_of_singleton. intros ->. split; apply (bool_decide_unpack _); by vm_compute. }
  split. { exists (KInt, "a"). split; [apply (bool_decide_unpack _); by vm_compute|]. rewrite HS. by intros ?%elem_of_singleton. }
  split. { exists (KInt, "a"). split; [apply (bool_decide_unpack _); by vm_compute|]. rewrite HS. by intros ?%elem_of_singleton. }
  split.
  { exists vt_cols, vt_v0.1, vt_v0.2, vt_v0.2, vt_v.1, vt_v.2.
    split; [by vm_compute|]. split; [by vm_compute|]. split; [by vm_compute|]. split; [by vm_compute|]. split; [|by vm_compute].
    right. split; [by vm_compute|].
    assert (H1 : Forall (fun c => c ∉ en_new vt_enc) (en_cats vt_enc)) by (apply (bool_decide_unpack _); by vm_compute).
    assert (H2 : Forall (fun c => c ∉ t_strs (abs vt_v.2 vt_v.1)) (en_cats vt_enc)) by (apply (bool_decide_unpack _); by vm_compute).
    rewrite Forall_forall in H1. rewrite Forall_forall in H2. split; [exact H1|exact H2]. }
  split; [rewrite HS; by apply elem_of_singleton|].
  split; [unfold seen, seen_nil; apply (bool_decide_unpack _); by vm_compute|]. split; [unfold seen, seen_nil; apply (bool_decide_unpack _); by vm_compute|]. split; [unfold seen, seen_nil; apply (bool_decide_unpack _); by vm_compute|].
  split; [by vm_compute|]. split_and!; by vm_compute.
Qed.
End wit.
