(** C128: training and predicting do not depend on the unit of the target, in
    exact arithmetic. *)
From Coq Require Import Reals Psatz.
From Verif Require Import P_PrepMain P_Check.
From Verif Require Export P_LinRegMain.
From Verif Require Import P_UnitsMain P_BaselineMain.
From stdpp Require Import strings list.
From Verif Require Import M_LinReg P_Auto4 P_Check.
Local Open Scope R_scope.

(** The numbers of Fit and Predict put together: the target is standardised,
    the steps are made on the rows with the indices in [parts] (any batches of any
    epochs), and the products with the rows [new] are transformed back. *)
Definition exact_predictions (bl : blas real_arith) (p : lr_params real_arith) (w prev : list R) (rows : list (list R)) (parts : list (list nat))
    (new : list (list R)) (ys : list xr) : list xr :=
  let sc := exact_scaler std "_target" ys in
  let target := scale_value sc "_target" <$> ys in
  let st := foldl (sgd_step bl p) (XR <$> w, XR <$> prev) ((fun q => (exact_row <$> pick q rows, pick q target)) <$> parts) in
  scale_value (inverse_scaler sc) "_target" <$> mul_vec (dot_t bl) (exact_row <$> new) st.1.

Lemma pick_fmap {A B} (f : A -> B) q l : pick q (f <$> l) = f <$> pick q l.
Proof. induction q as [|i q IH]; [done|]. unfold pick in *. cbn. rewrite list_lookup_fmap. destruct (l !! i); cbn; [f_equal|]; exact IH. Qed.
Lemma pick_length {A B} q (l : list A) (k : list B) : length l = length k -> length (pick q l) = length (pick q k).
Proof.
  intros H. induction q as [|i q IH]; [done|]. unfold pick in *. cbn. destruct (l !! i) eqn:E1, (k !! i) eqn:E2; cbn; [f_equal; exact IH| | |exact IH]; exfalso.
  - apply lookup_lt_Some in E1. apply lookup_ge_None in E2. lia.
  - apply lookup_ge_None in E1. apply lookup_lt_Some in E2. lia.
Qed.
Lemma back_list (ys : list R) (a b : R) : ~ all_equal ys -> 0 < a -> forall zs : list R, exists us : list R,
  scale_value (inverse_scaler (exact_scaler std "_target" (XR <$> ys))) "_target" <$> (XR <$> zs) = XR <$> us /\
  scale_value (inverse_scaler (exact_scaler std "_target" (in_unit a b <$> (XR <$> ys)))) "_target" <$> (XR <$> zs) = XR <$> ((fun u => a * u + b) <$> us).
Proof.
  intros HA Ha zs. induction zs as [|z zs (us & E1 & E2)]; [by exists []|].
  destruct (C121_back_main "_target" (XR <$> ys) a b z (all_finite ys)) as (x & F1 & F2); [by rewrite present_all|done|].
  exists (x :: us). rewrite !fmap_cons. split; f_equal; done.
Qed.
Lemma C128_unit_main : forall (bl : blas real_arith), exact_blas bl ->
  forall (ne size : Z) (lr decay momentum : R) (lowmem : bool) (w prev : list R) (rows : list (list R)) (parts : list (list nat)) (new : list (list R)) (ys : list R) (a b : R),
  length prev = length w -> length rows = length ys -> Forall (fun x => length x = length w) rows -> Forall (fun x => length x = length w) new ->
  ~ all_equal ys -> 0 < a ->
  let predict := exact_predictions bl (exact_params ne size lr decay momentum lowmem) w prev rows parts new in
  exists us, length us = length new /\ predict (XR <$> ys) = XR <$> us /\ predict (in_unit a b <$> (XR <$> ys)) = XR <$> ((fun u => a * u + b) <$> us).
Proof.
  intros bl HB ne size lr decay momentum lowmem w prev rows parts new ys a b Hp HL HR HN HA Ha predict.
  assert (Hn : ys <> []) by (intros ->; apply HA; intros x y Hx; by apply elem_of_nil in Hx).
  pose proof (C121_units_main "_target" (XR <$> ys) a b (all_finite ys) Ha) as HU. unfold exact_result in HU.
  pose proof (std_list "_target" ys Hn) as HS. set (ts := (fun y => (y + - r_mean ys) * r_scale ys) <$> ys) in HS.
  unfold predict, exact_predictions. rewrite HU, HS.
  assert (EB : (fun q => (exact_row <$> pick q rows, pick q (XR <$> ts))) <$> parts = exact_batch <$> (part_of rows ts <$> parts)).
  { rewrite <- list_fmap_compose. apply list_fmap_ext. intros i q _. unfold compose, exact_batch, part_of. cbn [fst snd]. by rewrite pick_fmap. }
  assert (HO : Forall (batch_ok (length w)) (part_of rows ts <$> parts)).
  { apply Forall_fmap, Forall_forall. intros q _. split; cbn [part_of fst snd].
    - apply pick_length. unfold ts. by rewrite fmap_length.
    - by apply pick_Forall. }
  pose proof (exact_run bl HB ne size lr decay momentum lowmem _ (w, prev) Hp HO) as ER. cbn [fst snd] in ER.
  destruct (run_len lr decay momentum _ (w, prev) Hp HO) as [RL _]. cbn [fst] in RL.
  set (st := foldl (real_step lr decay momentum) _ _) in *.
  assert (EF : foldl (sgd_step bl (exact_params ne size lr decay momentum lowmem)) (XR <$> w, XR <$> prev) ((fun q => (exact_row <$> pick q rows, pick q (XR <$> ts))) <$> parts) = (XR <$> st.1, XR <$> st.2)).
  { etrans; [|exact ER]. f_equal. exact EB. }
  assert (EM : mul_vec (dot_t bl) (exact_row <$> new) (XR <$> st.1) = XR <$> ((fun x => rdot x st.1) <$> new)).
  { unfold mul_vec. rewrite <- !list_fmap_compose. apply list_fmap_ext. intros i x Hx. unfold compose, exact_row. apply HB. etrans; [by eapply (Forall_lookup_1 _ _ _ _ HN)|]. symmetry. exact RL. }
  assert (EA : mul_vec (dot_t bl) (exact_row <$> new) (foldl (sgd_step bl (exact_params ne size lr decay momentum lowmem)) (XR <$> w, XR <$> prev) ((fun q => (exact_row <$> pick q rows, pick q (XR <$> ts))) <$> parts)).1 = XR <$> ((fun x => rdot x st.1) <$> new)).
  { etrans; [|exact EM]. exact (f_equal (fun s : list xr * list xr => mul_vec (dot_t bl) (exact_row <$> new) s.1) EF). }
  destruct (back_list ys a b HA Ha ((fun x => rdot x st.1) <$> new)) as (us & E1 & E2). exists us. split; [|split].
  - apply (f_equal length) in E1. rewrite !fmap_length in E1. done.
  - etrans; [|exact E1]. exact (f_equal (fmap _) EA).
  - etrans; [|exact E2]. exact (f_equal (fmap _) EA).
Qed.
(** Features: a scaler fitted to data in another unit maps any value in that
    unit, seen or not, to the same number. *)
Lemma C128_features_main : forall (c : string) (vs : list xr) (a b : R) (v : xr), Forall finite_or_missing vs -> ~ all_equal (present vs) -> 0 < a -> finite_or_missing v ->
  scale_value (exact_scaler std c (in_unit a b <$> vs)) c (in_unit a b v) = scale_value (exact_scaler std c vs) c v.
Proof.
  intros c vs a b v H Hne Ha Hv. pose proof (unit_finite a b vs H) as H'.
  assert (Hn : present vs <> []) by (intros E; apply Hne; rewrite E; intros x y Hx; by apply elem_of_nil in Hx).
  assert (Hn' : present (in_unit a b <$> vs) <> []) by (rewrite present_unit by lra; by destruct (present vs)).
  destruct (std_fit vs H Hn) as [E1 E2]. destruct (std_fit _ H' Hn') as [F1 F2]. destruct v as [x|s|]; [|done|done]. cbn [in_unit].
  rewrite (exact_value std c _ _ _ F1 F2), (exact_value std c _ _ _ E1 E2). f_equal. rewrite !present_unit by lra. apply unit_scale; [done|done|by right].
Qed.
Lemma C128_check_main : exact_blas xbl /\ Forall (fun x : list R => length x = 1%nat) xw_rows /\ length xw_rows = 2%nat /\ ~ all_equal [1; 5] /\
  (in_unit 2 1 <$> (XR <$> [1; 5])) = [XR (2 * 1 + 1); XR (2 * 5 + 1)] /\ pick [1%nat; 0%nat] [1; 5] = [5; 1].
Proof.
  destruct C75_check_main as (H1 & H2 & _). split; [done|]. split; [apply H2|]. split; [done|]. split; [apply C127_check_main|]. done.
Qed.
