(** SliceView outside the documented bounds, and the encoding of copies: C66, C67. *)
From Verif Require Import P_Auto2 P_WriteMain P_ViewMain P_Check.

(** ** When SliceView panics *)
Lemma lift_panic {A B} (f : A -> M B) h : bind (lift Panic) f h = Panic.
Proof. done. Qed.
Lemma cut_index (rt : GoRT) d a b h : d_viewed d = true \/ (b - a <= 10 * Z.of_nat (size (mp h (r_maps (d_raw d)))))%Z ->
  cut (view d) a b h = Panic <-> ~ (0 <= a /\ a <= b /\ b <= Z.of_nat (length (ibuf (d_ind d))))%Z.
Proof.
  intros Hb. unfold cut. rewrite (bind_eq _ _ h (mp h (r_maps (d_raw (view d)))) h) by done.
  change (d_viewed (view d)) with (d_viewed d). change (r_sharedMaps (d_raw (view d))) with true. change (d_ind (view d)) with (d_ind d).
  assert (Hc : d_viewed d || (true && negb (bool_decide (b - a > 10 * Z.of_nat (num_columns (mp h (r_maps (d_raw (view d))))))%Z)) = true).
  { destruct Hb as [->|Hb]; [done|]. rewrite bool_decide_eq_false_2; [by rewrite orb_true_r|]. unfold num_columns.
    change (r_maps (d_raw (view d))) with (r_maps (d_raw d)). lia. }
  rewrite Hc. unfold ind_cut. destruct (decide _) as [H|H].
  - split; [|done]. intros E. discriminate E.
  - split; [done|]. intros _. done.
Qed.
Lemma cut_columns (rt : GoRT) d a b h : wf h d -> d_viewed d = false -> (10 * Z.of_nat (size (mp h (r_maps (d_raw d)))) < b - a)%Z ->
  cut (view d) a b h = Panic <-> ~ (b - a <= Z.of_nat (length (ibuf (d_ind d))) /\
    map_Forall (fun _ s => 0 <= a /\ b <= Z.of_nat (s_cap s))%Z (mp h (r_maps (d_raw d))))%Z.
Proof.
  intros [n W] Hv Hb. unfold cut. rewrite (bind_eq _ _ h (mp h (r_maps (d_raw (view d)))) h) by done.
  change (d_viewed (view d)) with (d_viewed d). change (r_sharedMaps (d_raw (view d))) with true. change (d_ind (view d)) with (d_ind d).
  rewrite Hv. rewrite bool_decide_eq_true_2 by (unfold num_columns; change (r_maps (d_raw (view d))) with (r_maps (d_raw d)); lia).
  cbn [orb andb negb].
  destruct (own_maps_spec (d_raw (view d)) h) as
      (r & h1 & E1 & A1 & A2 & A3 & A4 & A5 & A6 & A7 & A8 & A9 & A10 & A11 & _);
      [apply (wf_map _ _ _ W)|exact (wf_shr _ _ _ W)|].
  rewrite (bind_eq _ _ _ _ _ E1). unfold ind_cut. destruct (decide (0 <= 0 /\ 0 <= b - a /\ b - a <= _)%Z) as [H|H].
  - rewrite (bind_eq _ _ _ _ _ (eq_refl : lift (Ok _) h1 = Ok (_, h1))).
    rewrite (bind_eq _ _ h1 (mp h1 (r_maps r)) h1) by done. rewrite A5. change (r_maps (d_raw (view d))) with (r_maps (d_raw d)).
    destruct (decide (map_Forall _ _)) as [F|F].
    + set (h2 := set_mp h1 (r_maps r) (sl_cut a b <$> mp h (r_maps (d_raw d)))).
      rewrite (bind_eq _ _ h1 tt h2) by done.
      destruct (shr_add_spec (r_shared r) (names (mp h (r_maps (d_raw d)))) h2) as (sh & h3 & E3 & _).
      rewrite (bind_eq _ _ _ _ _ E3). split; [done|]. intros Hn. exfalso. apply Hn. split; [lia|].
      eapply map_Forall_impl; [exact F|]. intros k s (? & ? & ?). lia.
    + split; [|done]. intros _ [_ F']. apply F. eapply map_Forall_impl; [exact F'|]. intros k s (? & ?). unfold sl_cut_ok. lia.
  - rewrite lift_panic. split; [|done]. intros _ [H' _]. lia.
Qed.

(** What the indices and the columns have room for, beyond what is visible. *)
Definition index_cap (d : dframe) : Z := Z.of_nat (length (ibuf (d_ind d))).
Definition columns_fit (h : heap) (d : dframe) (from to : Z) : Prop :=
  forall k s, mp h (r_maps (d_raw d)) !! k = Some s -> (0 <= from /\ to <= Z.of_nat (s_cap s))%Z.
(** Whether the result is an index view of [rows] rows. *)
Definition by_index (h : heap) (d : dframe) (rows : Z) : Prop :=
  d_viewed d = true \/ (rows <= 10 * Z.of_nat (size (t_cols (abs h d))))%Z.
Lemma C66_slice_view_panics_partial_main (rt : GoRT) (h : heap) (d : dframe) (from to : Z) :
  wf h d ->
  let n := Z.of_nat (num_rows d) in
  let from' := if decide (from < 0)%Z then (from + (n + 1))%Z else from in
  let to' := if decide (to < 0)%Z then (to + (n + 1))%Z else to in
  (* reversed: as documented *)
  ((to' < from')%Z -> slice_view d from to h = Panic <-> (to' < 0 \/ n < from')%Z) /\
  (* index view: what has been cut off before comes back *)
  ((from' <= to')%Z -> by_index h d (to' - from') -> slice_view d from to h = Panic <-> (from' < 0 \/ index_cap d < to')%Z) /\
  (* columns cut; without columns negative bounds are accepted too *)
  ((from' <= to')%Z -> ~ by_index h d (to' - from') ->
    slice_view d from to h = Panic <-> (index_cap d < to' - from')%Z \/ ~ columns_fit h d from' to').
Proof.
  intros W n from' to'.
  assert (Hs : size (t_cols (abs h d)) = size (mp h (r_maps (d_raw d)))) by (unfold abs; cbn [t_cols]; by rewrite map_size_fmap).
  assert (E : slice_view d from to h = if decide (from' > to')%Z then cut (view (reverse_view d)) to' from' h else cut (view d) from' to' h).
  { unfold slice_view. fold n. fold from' to'. destruct (decide (from' > to')%Z); done. }
  rewrite E. clear E. split; [|split].
  - intros Hlt. rewrite decide_True by lia. rewrite cut_index by (by left).
    change (ibuf (d_ind (reverse_view d))) with (reverse (inds d)). rewrite reverse_length. destruct W as [m W].
    rewrite (wfn_inds_length _ _ _ W). unfold n. lia.
  - intros Hle Hb. rewrite decide_False by lia. rewrite cut_index by (unfold by_index in Hb; by rewrite Hs in Hb). unfold index_cap. lia.
  - intros Hle Hb. rewrite decide_False by lia. unfold by_index in Hb. rewrite Hs in Hb.
    rewrite cut_columns; [|done|destruct (d_viewed d); [destruct Hb; by left|done]|apply Z.nle_gt; intros Hx; apply Hb; by right].
    unfold index_cap. assert (Hq : columns_fit h d from' to' <-> map_Forall (fun _ s => 0 <= from' /\ to' <= Z.of_nat (s_cap s))%Z (mp h (r_maps (d_raw d)))) by done.
    rewrite Hq. destruct (decide (map_Forall (fun _ s => 0 <= from' /\ to' <= Z.of_nat (s_cap s))%Z (mp h (r_maps (d_raw d))))); [|tauto].
    destruct (decide (to' - from' <= Z.of_nat (length (ibuf (d_ind d))))%Z); [|split; [intros _; left; lia|intros _ [? _]; lia]].
    split; [intros Hn; exfalso; tauto|]. intros [?|?]; [lia|tauto].
Qed.
(** Within the documented bounds there is always room. *)
Lemma C66_within_bounds_main (rt : GoRT) (h : heap) (d : dframe) (from to : Z) :
  wf h d -> (0 <= from <= Z.of_nat (num_rows d))%Z -> (0 <= to <= Z.of_nat (num_rows d))%Z -> slice_view d from to h <> Panic.
Proof.
  intros W Hf Ht. destruct (decide (from <= to)%Z) as [Hle|Hle].
  - destruct (C02_slice_view_rows_main rt h d from to W) as (v & h' & E & _); [rewrite !decide_False by lia; lia..|]. by rewrite E.
  - destruct (C03_slice_view_reversed_partial_main rt h d from to W) as (v & h' & E & _); [rewrite !decide_False by lia; lia..|]. by rewrite E.
Qed.
(** Without columns even bounds below zero are accepted. *)
Lemma C66_negative_refuted_main : exists (h : heap) (d v : dframe) (h' : heap),
  wf h d /\ num_rows d = 5 /\ slice_view (rt := ex_rt) d (-9) (-7) h = Ok (v, h') /\ num_rows v = 2.
Proof.
  set (p := run_df (empty_df 5 1) heap0). exists p.2, p.1, (run_df (slice_view (rt := ex_rt) p.1 (-9) (-7)) p.2).1, (run_df (slice_view (rt := ex_rt) p.1 (-9) (-7)) p.2).2.
  split; [apply (wf_check_sound _ _ 5); by vm_compute|]. split; [by vm_compute|]. split; by vm_compute.
Qed.

(** ** The encoding of copies *)
Lemma C67_copies_partial_main (rt : GoRT) (h : heap) (d : dframe) : wf h d ->
  exists s h1 c h2, shallow_copy d h = Ok (s, h1) /\ copy_df d h = Ok (c, h2) /\
    (* all but the encoding is kept *)
    (forall t, t = abs h1 s \/ t = abs h2 c -> t_rows t = t_rows (abs h d) /\ t_cols t = t_cols (abs h d) /\
       t_strs t = t_strs (abs h d) /\ t_cpu t = t_cpu (abs h d) /\ t_enc t = None) /\
    (* so it is kept if there is none *)
    (abs h1 s = abs h d <-> t_enc (abs h d) = None) /\ (abs h2 c = abs h d <-> t_enc (abs h d) = None).
Proof.
  intros W. destruct (shallow_copy_spec h d W) as (s & h1 & E1 & _ & _ & _ & A1 & _).
  destruct (copy_df_spec h d W) as (c & h2 & E2 & _ & _ & _ & A2 & _).
  exists s, h1, c, h2. split; [done|]. split; [done|]. rewrite A1, A2. split; [by intros t [-> | ->]|].
  destruct (abs h d) as [rows cols strs enc cpu] eqn:Ea. assert (num_rows d = rows) as -> by (pose proof (f_equal t_rows Ea) as Hr; exact Hr).
  cbn. split; (split; [by intros [= <-]|by intros ->]).
Qed.
Section wit.
Existing Instance ex_rt.
Lemma C66_check_main : wf ex_h ex_d /\ by_index ex_h ex_d 2 /\ slice_view ex_d 5 0 ex_h = Panic /\ slice_view ex_d (-6) 1 ex_h = Panic /\
  slice_view ex_d 1 3 ex_h <> Panic /\ wf ex_vh ex_v /\ d_viewed ex_v = true /\ slice_view ex_v 0 (index_cap ex_v + 1) ex_vh = Panic.
Proof.
  split; [apply (wf_check_sound _ _ 4); by vm_compute|]. split; [right; by vm_compute|]. split; [by vm_compute|]. split; [by vm_compute|].
  split; [by vm_compute|]. split; [apply (wf_check_sound _ _ 4); by vm_compute|]. split; by vm_compute.
Qed.
End wit.
