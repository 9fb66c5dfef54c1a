(** C117: the int columns can be recovered from their one-hot encoding, by the
    inverse table that one_hot.go:249-252 leaves for later. *)
From Verif Require Export P_OneHotMain.
From stdpp Require Import strings list.
From Verif Require Import Spec_OneHot P_Base P_Check.

(** The category whose flag is set in row [j]; -1, a missing value, when it is
    none. *)
Definition decode (e : encoder) (c : string) (t : table) (j : nat) : Z :=
  default (-1)%Z (fst <$> head (filter (fun p => t_cell t (KBool, p.2) j = Some (VBool true)) (map_to_list (default ∅ (en_map e !! c))))).
Definition decode_column (e : encoder) (c : string) (t : table) : list Z := decode e c t <$> seq 0 (t_rows t).

Section dec.
Context (rt : GoRT).
Context (order : gset string -> list string) (Horder : forall X, order X ≡ₚ elements X).
Context (ord : string -> bool -> gset Z -> list Z) (Hord : forall c b X, ord c b X ≡ₚ elements X).

(** Values told apart from all others. *)
Definition recoverable (opt : oh_opt) (t0 : table) (c : string) (z : Z) : Prop :=
  z ∈ t_ints t0 c /\ z <> (-1)%Z \/ z = (-1)%Z /\ (oh_missing opt = PSeparate \/ oh_missing opt = PIfSeen /\ (-1)%Z ∈ t_ints t0 c).

Lemma decode_value opt d0 h0 e h1 d v h h' c j z :
  wf h0 d0 -> oh_fit order ord (oh_fix opt) d0 h0 = Ok (e, h1) ->
  wf h d -> drop_safe e (abs h d) -> oh_transform e d h = Ok (Some v, h') -> c ∈ en_cats e -> t_ints (abs h d) c !! j = Some z ->
  recoverable (oh_fix opt) (abs h0 d0) c z -> decode e c (abs h' v) j = z.
Proof using Horder Hord.
  intros W0 Ef W Hd Et Hc Hz HR.
  destruct (C55_one_flag_main order Horder ord Hord opt d0 h0 e h1 d v h h' W0 Ef W Hd Et c j z Hc Hz) as (n & Hn & Hfl & Ht & Ho).
  pose proof (C55_fit_main order Horder ord Hord opt d0 h0 W0) as HF. rewrite Ef in HF. destruct HF as [_ HF].
  destruct (ft_col _ _ _ HF _ Hc) as (toNew & fb0 & fb1 & Em & Eb & Hcol).
  destruct Hfl as (m & f0 & f1 & Em' & Eb' & Hfl). rewrite Em in Em'. rewrite Eb in Eb'. injection Em' as <-. injection Eb' as <- <-.
  unfold decode. rewrite Em. change (default ∅ (Some toNew)) with toNew.
  match goal with |- context [head ?x] => set (l := x) end.
  assert (HL : forall z' n', (z', n') ∈ l <-> toNew !! z' = Some n' /\ n' = n).
  { intros z' n'. unfold l. rewrite elem_of_list_filter, elem_of_map_to_list. cbn [snd]. split.
    - intros [H1 H2]. split; [done|]. destruct (decide (n' = n)) as [|Hne]; [done|]. rewrite Ho in H1; [done| |done]. left. by exists toNew, z'.
    - intros [H1 ->]. done. }
  destruct HR as [[Hin Hm]|[-> HR]].
  - destruct (proj2 (fc_cats _ _ _ _ _ _ Hcol z) (conj Hin Hm)) as [n' Hn']. destruct Hfl as [[? _]|[[_ Hfl]|(_ & Hfl & _)]]; [done| |congruence].
    assert (Hz' : (z, n) ∈ l) by by apply HL. destruct l as [|[z2 n2] l]; [by apply elem_of_nil in Hz'|]. cbn.
    destruct (proj1 (HL z2 n2)) as [H2 ->]; [left|]. by apply (fc_inj _ _ _ _ _ _ Hcol _ _ n).
  - destruct Hfl as [[_ ->]|[[? _]|(? & _)]]; [|done|done].
    destruct l as [|[z2 n2] l]; [done|]. destruct (proj1 (HL z2 n2)) as [H2 ->]; [left|]. exfalso.
    destruct (fc_names _ _ _ _ _ _ Hcol _ _ H2) as (i & E & _). pose proof (fc_fb0 _ _ _ _ _ _ Hcol) as HB. unfold fallback0_ok in HB.
    assert (HM : fb0 = missing_name c) by (destruct HR as [HR|[HR HI]]; rewrite HR in HB; [done|by rewrite decide_True in HB by done]).
    rewrite HM in E. symmetry in E. by apply onehot_missing in E.
Qed.
End dec.

Lemma C117_value_main : forall (rt : GoRT), forall order (Horder : forall X, order X ≡ₚ elements X) ord (Hord : forall c b X, ord c b X ≡ₚ elements X) opt d0 h0 e h1 d v h h' c j z,
  wf h0 d0 -> oh_fit order ord (oh_fix opt) d0 h0 = Ok (e, h1) ->
  wf h d -> drop_safe e (abs h d) -> oh_transform e d h = Ok (Some v, h') -> c ∈ en_cats e -> t_ints (abs h d) c !! j = Some z ->
  z ∈ t_ints (abs h0 d0) c -> z <> (-1)%Z -> decode e c (abs h' v) j = z.
Proof. intros rt order Ho ord Hord opt d0 h0 e h1 d v h h' c j z W0 Ef W Hd Et Hc Hz Hi Hm. eapply (decode_value rt order Ho ord Hord opt d0 h0 e h1 d v h h'); try done. by left. Qed.
Lemma C117_column_main : forall (rt : GoRT), forall order (Horder : forall X, order X ≡ₚ elements X) ord (Hord : forall c b X, ord c b X ≡ₚ elements X) opt d0 h0 e h1 d v h h' c,
  wf h0 d0 -> oh_fit order ord (oh_fix opt) d0 h0 = Ok (e, h1) ->
  wf h d -> drop_safe e (abs h d) -> oh_transform e d h = Ok (Some v, h') -> c ∈ en_cats e -> is_Some (t_cols (abs h d) !! (KInt, c)) ->
  (forall z, z ∈ t_ints (abs h d) c -> recoverable (oh_fix opt) (abs h0 d0) c z) ->
  decode_column e c (abs h' v) = t_ints (abs h d) c.
Proof.
  intros rt order Ho ord Hord opt d0 h0 e h1 d v h h' c W0 Ef W Hd Et Hc [l Hl] HR.
  pose proof (C55_fit_main order Ho ord Hord opt d0 h0 W0) as HF. rewrite Ef in HF. destruct HF as [_ HF].
  pose proof (C55_transform_main (oh_fix opt) (abs h0 d0) e h d (oh_fix_fixed opt) HF W Hd) as HT. rewrite Et in HT. destruct HT as (_ & HE & _).
  destruct (abs_ok _ _ W _ _ Hl) as [Hlen _]. assert (HL : length (t_ints (abs h d) c) = t_rows (abs h d)) by (unfold t_ints; rewrite Hl; simpl; by rewrite fmap_length).
  unfold decode_column. rewrite (ec_rows _ _ _ HE), <- HL. apply list_eq. intros j. rewrite list_lookup_fmap.
  destruct (t_ints (abs h d) c !! j) as [z|] eqn:Ez.
  - rewrite lookup_seq_lt by (by eapply lookup_lt_Some). cbn. f_equal. eapply (decode_value rt order Ho ord Hord opt d0 h0 e h1 d v h h'); try done. apply HR. by eapply elem_of_list_lookup_2.
  - rewrite lookup_seq_ge by (by apply lookup_ge_None). done.
Qed.
(** With ReturnError for unknown categories every encoded column can be
    recovered. *)
Lemma C117_refused_main : forall (rt : GoRT), forall order (Horder : forall X, order X ≡ₚ elements X) ord (Hord : forall c b X, ord c b X ≡ₚ elements X) opt d0 h0 e h1 d v h h' c,
  wf h0 d0 -> oh_fit order ord (oh_fix opt) d0 h0 = Ok (e, h1) ->
  wf h d -> drop_safe e (abs h d) -> oh_transform e d h = Ok (Some v, h') -> c ∈ en_cats e -> is_Some (t_cols (abs h d) !! (KInt, c)) ->
  oh_unknown (oh_fix opt) = PError -> oh_missing (oh_fix opt) = PSeparate \/ oh_missing (oh_fix opt) = PError ->
  decode_column e c (abs h' v) = t_ints (abs h d) c.
Proof.
  intros rt order Ho ord Hord opt d0 h0 e h1 d v h h' c W0 Ef W Hd Et Hc Hl Hu Hm. eapply (C117_column_main rt order Ho ord Hord opt d0 h0 e h1 d v h h'); try done.
  pose proof (C55_fit_main order Ho ord Hord opt d0 h0 W0) as HF. rewrite Ef in HF. destruct HF as [_ HF].
  pose proof (C55_transform_main (oh_fix opt) (abs h0 d0) e h d (oh_fix_fixed opt) HF W Hd) as HT. rewrite Et in HT. destruct HT as (_ & _ & _ & HN).
  intros z Hz. destruct (decide (z = -1)%Z) as [->|Hne].
  - right. split; [done|]. left. destruct Hm as [Hm|Hm]; [done|]. exfalso. apply HN. exists c, (-1)%Z. split; [done|]. split; [done|]. by left.
  - left. split; [|done]. destruct (decide (z ∈ t_ints (abs h0 d0) c)) as [|Hni]; [done|]. exfalso. apply HN. exists c, z. split; [done|]. split; [done|]. by right.
Qed.
(** The training data can be recovered under the default policy. *)
Lemma C117_training_main : forall (rt : GoRT), forall order (Horder : forall X, order X ≡ₚ elements X) ord (Hord : forall c b X, ord c b X ≡ₚ elements X) opt d0 h0 e h1 v h' c,
  wf h0 d0 -> oh_fit order ord (oh_fix opt) d0 h0 = Ok (e, h1) ->
  drop_safe e (abs h0 d0) -> oh_transform e d0 h0 = Ok (Some v, h') -> is_Some (t_cols (abs h0 d0) !! (KInt, c)) ->
  oh_missing (oh_fix opt) <> PFrequent -> decode_column e c (abs h' v) = t_ints (abs h0 d0) c.
Proof.
  intros rt order Ho ord Hord opt d0 h0 e h1 v h' c W0 Ef Hd Et Hl Hm.
  pose proof (C55_fit_main order Ho ord Hord opt d0 h0 W0) as HF. rewrite Ef in HF. destruct HF as [_ HF].
  pose proof (C55_transform_main (oh_fix opt) (abs h0 d0) e h0 d0 (oh_fix_fixed opt) HF W0 Hd) as HT. rewrite Et in HT. destruct HT as (_ & _ & _ & HN).
  assert (Hc : c ∈ en_cats e) by by apply (ft_cats _ _ _ HF).
  eapply (C117_column_main rt order Ho ord Hord opt d0 h0 e h1 d0 v h0 h'); try done. intros z Hz. destruct (decide (z = -1)%Z) as [->|Hne]; [|by left]. right. split; [done|].
  pose proof (oh_fix_fixed opt) as [HF1 _]. destruct (oh_missing (oh_fix opt)) eqn:E; [by right|done|by left|done|].
  exfalso. apply HN. exists c, (-1)%Z. split; [done|]. split; [done|]. by left.
Qed.

Section wit.
Existing Instance ex_rt.
Definition dw := int_frame [("a", [3; -2; 3; -1])]%Z.
Definition dw_enc := run_ohfit (OhOpt PIfSeen PError false) dw.
Definition dw_out := default dw (run_oh dw_enc dw).
Lemma C117_check_main : wf dw.2 dw.1 /\ oh_fit elts ord0 (oh_fix (OhOpt PIfSeen PError false)) dw.1 dw.2 = Ok (dw_enc, dw.2) /\
  en_cats dw_enc = ["a"] /\ drop_safe dw_enc (abs dw.2 dw.1) /\ oh_transform dw_enc dw.1 dw.2 = Ok (Some dw_out.1, dw_out.2) /\
  t_ints (abs dw.2 dw.1) "a" = [3; -2; 3; -1]%Z /\ decode_column dw_enc "a" (abs dw_out.2 dw_out.1) = [3; -2; 3; -1]%Z.
Proof.
  split; [apply (wf_check_sound _ _ 4); by vm_compute|]. split; [by vm_compute|]. split; [by vm_compute|]. split.
  - right. assert (E : en_cats dw_enc = ["a"]) by by vm_compute. split; [by vm_compute|]. rewrite E.
    assert (H1 : Forall (fun c => c ∉ en_new dw_enc) ["a"]) by (apply (bool_decide_unpack _); by vm_compute).
    assert (H2 : Forall (fun c => c ∉ t_strs (abs dw.2 dw.1)) ["a"]) by (apply (bool_decide_unpack _); by vm_compute).
    rewrite Forall_forall in H1, H2. done.
  - split; [by vm_compute|]. split; by vm_compute.
Qed.
(** Values imputed with the most frequent category cannot be told from it. *)
Definition dw2 := run_ohfit (OhOpt PFrequent PError false) dw.
Definition dw2_out := default dw (run_oh dw2 dw).
Lemma C117_imputed_refuted_main : exists d h e v h', wf h d /\ oh_fit elts ord0 (oh_fix (OhOpt PFrequent PError false)) d h = Ok (e, h) /\
  oh_transform e d h = Ok (Some v, h') /\ t_ints (abs h d) "a" = [3; -2; 3; -1]%Z /\
  decode_column e "a" (abs h' v) = [3; -2; 3; 3]%Z.
Proof.
  exists dw.1, dw.2, dw2, dw2_out.1, dw2_out.2. split; [apply (wf_check_sound _ _ 4); by vm_compute|]. split; [by vm_compute|]. split; [by vm_compute|]. split; by vm_compute.
Qed.
End wit.
