(** Fit: preparing the data. *)
From Verif Require Import P_PrepMain P_View2 P_UtilsMain.
From Verif Require Export P_LinReg4.
From Verif Require Import P_Auto4.

Section fit.
Context {rt : GoRT}.
(** ** Renaming a detached float column *)
Lemma rename_float_map h d old new (s : slice) r' h' : wf h d -> mp h (r_maps (d_raw d)) !! (KFloat, old) = Some s ->
  rename (d_raw d) old new h = Ok (r', h') ->
  mp h' (r_maps r') = delete (KFloat, old) (<[(KFloat, new) := s]> (mp h (r_maps (d_raw d)))).
Proof.
  intros [n W] Hs. destruct (own_change h d n W) as (r1 & h1 & E1 & X1 & Ea & A1 & W1 & A2 & A3 & A4 & A5 & A6 & A7).
  rewrite (rename_eq _ _ _ _ _ _ E1). rewrite A1. unfold rename_slice. rewrite Hs.
  set (m' := delete _ _). set (h2 := set_mp h1 (r_maps r1) m').
  rewrite (bind_eq _ _ h1 tt h2) by done. rewrite (bind_eq _ _ h2 _ h2) by done. rewrite decide_False by (by intros [? _]).
  rewrite (bind_eq _ _ h2 (r_strs r1) h2) by done. rewrite (bind_eq _ _ h2 _ h2) by done.
  assert (M2 : mp h2 (r_maps r1) = m') by (apply mp_set_mp; apply (wf_map _ _ _ W1)).
  destruct (decide (old ∈ oshr h2 (r_shared r1))) as [Hd|Hd].
  - destruct (shr_remove_spec (r_shared r1) {[old]} h2) as (h4 & E4 & O4 & _).
    destruct (shr_add_spec (r_shared r1) {[new]} h4) as (sh & h5 & E5 & O5 & _).
    unfold bind at 1. rewrite (bind_eq _ _ _ _ _ E4), E5. intros [= <- <-]. cbn [r_maps]. unfold mp. by rewrite (os_map _ _ O5), (os_map _ _ O4).
  - unfold bind, ret. intros [= <- <-]. done.
Qed.
Lemma rename_col_float t c : is_Some (t_cols t !! (KFloat, c)) -> exists col, rename_col t c = Some (KFloat, col).
Proof. intros [col H]. unfold rename_col. rewrite H. by eexists. Qed.
Lemma rename_detached h d v hv target new : wf h d -> target <> new -> is_Some (t_cols (abs h d) !! (KFloat, target)) ->
  detached_view d [target] h = Ok (v, hv) -> in_prep h d {[target]} (abs h d) hv v ->
  exists r h', rename (d_raw v) target new hv = Ok (r, h') /\
    in_prep h d {[new]} (t_rename KFloat target new (abs h d)) h' (set_raw v r).
Proof.
  intros W Hne Hc ED (D & Ei & Ea). destruct D as (X & Wv & Hown & Hy).
  destruct (detached_view_spec h d [target] W) as (v' & hv' & E' & _ & _ & _ & _ & _ & Hm & _). rewrite ED in E'. injection E' as <- <-.
  pose proof (rename_spec hv v target new Wv Hne) as HR. rewrite Ea in HR.
  destruct (rename_col_float _ _ Hc) as [col Hcol]. destruct (rename (d_raw v) target new hv) as [[r h']|] eqn:ER; [|congruence].
  destruct HR as (k & col' & Hk & W' & A' & _ & _ & C' & P' & M' & _). rewrite Hcol in Hk. injection Hk as <- <-.
  assert (Hs : is_Some (mp hv (r_maps (d_raw v)) !! (KFloat, target))).
  { rewrite <- Ea, abs_cols_lookup in Hc. destruct (_ !! _); [by eexists|by destruct Hc]. }
  destruct Hs as [s Hs]. pose proof (rename_float_map _ _ _ _ _ _ _ Wv Hs ER) as EM.
  destruct (own_ext h hv h' (d_raw v) r X ltac:(right; by rewrite Hm) C' ltac:(apply P'; by intros [? _]) M') as [X' _].
  exists r, h'. split; [done|]. split; [|split; [by cbn|done]]. split; [done|]. split; [done|].
  assert (Hcell : forall j, cell_of h' (set_raw v r) (KFloat, new) j = cell_of hv v (KFloat, target) j).
  { intros j. unfold cell_of. change (d_raw (set_raw v r)) with r. change (inds (set_raw v r)) with (inds v). rewrite EM, Hs.
    rewrite lookup_delete_ne by congruence. by rewrite lookup_insert. }
  split.
  - intros c k j1 j2 a ->%elem_of_singleton H1 H2. rewrite Hcell in H1. destruct (decide (k = (KFloat, new))) as [|Hk]; [done|]. exfalso.
    assert (k <> (KFloat, target) /\ cell_of hv v k j2 = Some a) as [Hk2 H3].
    { unfold cell_of in H2. change (d_raw (set_raw v r)) with r in H2. change (inds (set_raw v r)) with (inds v) in H2. rewrite EM in H2.
      destruct (decide (k = (KFloat, target))) as [->|Hk2]; [by rewrite lookup_delete in H2|]. rewrite lookup_delete_ne, lookup_insert_ne in H2 by done. done. }
    apply Hk2. by apply (Hown target k j1 j2 a ltac:(set_solver)).
  - intros c ->%elem_of_singleton s' Hs'. change (d_raw (set_raw v r)) with r in Hs'. rewrite EM, lookup_delete_ne, lookup_insert in Hs' by congruence.
    injection Hs' as <-. by apply (Hy target ltac:(set_solver)).
Qed.
Lemma in_prep_ext h d F T hv v h' : in_prep h d F T hv v -> ext hv h' -> in_prep h d F T h' v.
Proof.
  intros ((X & Wv & Hown & Hy) & Ei & Ea) X'. split; [|split; [done|by rewrite (ext_abs hv h')]].
  split; [by eapply ext_trans|]. split; [by eapply ext_wf|]. split.
  - intros c k j1 j2 a Hc. rewrite !(cell_of_ext hv h') by done. by apply Hown.
  - intros c Hc s. destruct Wv as [n Wv]. rewrite (ext_mp hv h'); [by apply Hy|done|apply (wf_map _ _ _ Wv)].
Qed.
Lemma names_kind h d k c : c ∈ names_of k (mp h (r_maps (d_raw d))) <-> is_Some (t_cols (abs h d) !! (k, c)).
Proof.
  rewrite abs_cols_lookup. unfold names_of. rewrite elem_of_names. split.
  - intros (k' & s & [Hs Hk]%map_filter_lookup_Some). simpl in Hk. subst. rewrite Hs. by eexists.
  - intros H. destruct (mp h (r_maps (d_raw d)) !! (k, c)) as [s|] eqn:E; [|by destruct H].
    exists k, s. by apply map_filter_lookup_Some.
Qed.
Lemma num_keys_same t t' cols : (forall c k, c ∈ cols -> is_Some (t_cols t !! (k, c)) <-> is_Some (t_cols t' !! (k, c))) ->
  num_keys t cols = num_keys t' cols.
Proof.
  intros H. unfold num_keys. apply Forall_mapM_ext. apply Forall_forall. intros c Hc. unfold num_key. pose proof (H c KFloat Hc). pose proof (H c KBool Hc). pose proof (H c KInt Hc).
  rewrite (decide_ext (is_Some (t_cols t !! (KFloat, c))) (is_Some (t_cols t' !! (KFloat, c)))) by done.
  rewrite (decide_ext (is_Some (t_cols t !! (KBool, c))) (is_Some (t_cols t' !! (KBool, c)))) by done.
  rewrite (decide_ext (is_Some (t_cols t !! (KInt, c))) (is_Some (t_cols t' !! (KInt, c)))) by done. done.
Qed.
End fit.
