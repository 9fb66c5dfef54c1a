(** Training: one step, and the loop over the batches. *)
From Verif Require Import P_PrepMain P_View3 P_Batch2.
From Verif Require Export P_LinReg2.
From Verif Require Import P_Auto.

Section step.
Context {A : arith} (bl : blas A).
Lemma add_scaled_nth (v b : list (num A)) alpha : length b = length v ->
  add_scaled v alpha b = (fun j => axpy (nth0 v j) alpha (nth0 b j)) <$> seq 0 (length v).
Proof.
  intros Hl. apply list_eq. intros j. rewrite list_lookup_fmap. unfold add_scaled, axpy, nth0. destruct (a_eq A alpha (a_of A 0)) eqn:E.
  - destruct (v !! j) as [x|] eqn:Ev.
    + rewrite lookup_seq_lt by (by eapply lookup_lt_Some). cbn. by rewrite Ev.
    + rewrite lookup_seq_ge; [done|]. by apply lookup_ge_None.
  - rewrite lookup_zip_with. destruct (v !! j) as [x|] eqn:Ev.
    + pose proof (lookup_lt_Some _ _ _ Ev). destruct (lookup_lt_is_Some_2 b j ltac:(lia)) as [y Ey].
      rewrite lookup_seq_lt by done. cbn. by rewrite Ev, Ey.
    + rewrite lookup_seq_ge; [done|]. by apply lookup_ge_None.
Qed.
Lemma nth0_seq (f : nat -> num A) n j : j < n -> nth0 (f <$> seq 0 n) j = f j.
Proof. intros H. unfold nth0. by rewrite list_lookup_fmap, lookup_seq_lt. Qed.
Lemma fmap_nth0 (f : num A -> num A) (l : list (num A)) : f <$> l = (fun j => f (nth0 l j)) <$> seq 0 (length l).
Proof.
  apply list_eq. intros j. rewrite !list_lookup_fmap. unfold nth0. destruct (l !! j) as [x|] eqn:E.
  - rewrite lookup_seq_lt by (by eapply lookup_lt_Some). cbn. by rewrite E.
  - rewrite lookup_seq_ge; [done|]. by apply lookup_ge_None.
Qed.
Lemma sgd_step_spec p w prev rows y : length prev = length w ->
  sgd_step bl p (w, prev) (rows, y) =
  train_step (dot_t bl) (dot_n bl) (lp_lr p) (lp_momentum p) (lp_decay p) (w, prev) (rows, y).
Proof.
  intros Hl. unfold sgd_step, train_step. cbn [fst snd].
  set (err := zip_with (a_sub A) _ y).
  assert (Eerr : err = zip_with (fun x t => a_sub A (dot_t bl x w) t) rows y) by (unfold err, mul_vec; by rewrite zip_with_fmap_l).
  set (g0 := mul_vec (dot_n bl) (columns (length w) rows) err).
  assert (Eg0 : g0 = (fun j => dot_n bl ((fun x => nth0 x j) <$> rows) err) <$> seq 0 (length w)).
  { unfold g0, mul_vec, columns. by rewrite <- list_fmap_compose. }
  assert (Lg0 : length g0 = length w) by (by rewrite Eg0, fmap_length, seq_length).
  set (g := if a_lt A (a_of A 0) (lp_momentum p) then add_scaled g0 (lp_momentum p) prev else g0).
  assert (Eg : g = step_grad (dot_t bl) (dot_n bl) (lp_momentum p) w prev rows y <$> seq 0 (length w)).
  { unfold g. destruct (a_lt A (a_of A 0) (lp_momentum p)) eqn:Em.
    - rewrite add_scaled_nth, Lg0 by lia. apply list_fmap_ext. intros i j [-> Hj]%lookup_seq. unfold step_grad. rewrite Em, <- Eerr.
      by rewrite Eg0, nth0_seq.
    - rewrite Eg0. apply list_fmap_ext. intros i j _. unfold step_grad. by rewrite Em, <- Eerr. }
  assert (Lg : length g = length w) by (by rewrite Eg, fmap_length, seq_length).
  f_equal.
  - rewrite add_scaled_nth by done. set (w1 := (fun j => axpy _ _ _) <$> _).
    assert (E1 : w1 = (fun j => axpy (nth0 w j) (a_opp A (lp_lr p)) (step_grad (dot_t bl) (dot_n bl) (lp_momentum p) w prev rows y j)) <$> seq 0 (length w)).
    { unfold w1. apply list_fmap_ext. intros i j [-> Hj]%lookup_seq. by rewrite Eg, nth0_seq. }
    destruct (a_lt A (a_of A 0) (lp_decay p)) eqn:Ed.
    + rewrite E1, <- list_fmap_compose. apply list_fmap_ext. intros i j _. unfold compose, step_weight. by rewrite Ed.
    + rewrite E1. apply list_fmap_ext. intros i j _. unfold step_weight. by rewrite Ed.
  - destruct (a_lt A (a_of A 0) (lp_momentum p)); [exact Eg|done].
Qed.
Lemma train_step_lengths lr m dc st b : length st.2 = length st.1 ->
  length (train_step (dot_t bl) (dot_n bl) lr m dc st b).1 = length st.1 /\
  length (train_step (dot_t bl) (dot_n bl) lr m dc st b).2 = length st.1.
Proof.
  intros Hl. unfold train_step. cbn [fst snd]. rewrite fmap_length, seq_length. split; [done|]. destruct (a_lt _ _ _); [by rewrite fmap_length, seq_length|done].
Qed.
Lemma run_lengths lr m dc bs : forall st, length st.2 = length st.1 ->
  let st' := foldl (train_step (dot_t bl) (dot_n bl) lr m dc) st bs in length st'.1 = length st.1 /\ length st'.2 = length st.1.
Proof.
  induction bs as [|b bs IH]; intros st Hl; [done|]. cbn [foldl]. destruct (train_step_lengths lr m dc st b Hl) as [H1 H2].
  destruct (IH (train_step (dot_t bl) (dot_n bl) lr m dc st b) ltac:(lia)) as [H3 H4]. cbv zeta in *. lia.
Qed.
End step.

Section train.
Context {rt : GoRT} (bl : blas f64_arith).
(** The data of a batch. *)
Definition batch_data (t : table) (ks : list key) : list (list f64) * list f64 :=
  (t_num_rows f64_of_val t ks, t_floats t "_target").
Lemma batch_steps_spec h p cols ks n0 : ks <> [] ->
  forall batches db st, length st.2 = length st.1 ->
  Forall (fun b => wf h b /\ num_keys (abs h b) cols = Some ks /\ 0 < num_rows b <= n0 /\
                   is_Some (t_cols (abs h b) !! (KFloat, "_target"))) batches ->
  (forall b, head batches = Some b -> dense_at cols ks n0 db (num_rows b)) ->
  exists db', batch_steps bl p batches db st h =
    Ok ((db', foldl (train_step (A:=f64_arith) (dot_t bl) (dot_n bl) (lp_lr p) (lp_momentum p) (lp_decay p)) st
                ((fun b => batch_data (abs h b) ks) <$> batches)), h) /\
    ((forall n, n <= n0 -> dense_at cols ks n0 db' n) \/ batches = [] /\ db' = db).
Proof.
  intros Hne. induction batches as [|b batches IH]; intros db st Hst F HD.
  { exists db. split; [done|]. by right. }
  apply Forall_cons in F as [(W & Hk & Hr & [col Hc]) F]. cbn [batch_steps].
  pose proof (vec_dense_spec h b "_target" W) as EV. rewrite Hc in EV. rewrite (bind_eq _ _ _ _ _ EV).
  destruct (dense_step h b cols ks n0 db W Hk ltac:(lia) Hne (HD b eq_refl)) as (db1 & E & _ & HD1).
  rewrite (bind_eq _ _ _ _ _ E). cbn [fst snd].
  assert (HL : length (t_num_rows f64_of_val (abs h b) ks) = num_rows b) by (unfold t_num_rows; by rewrite fmap_length, seq_length).
  rewrite decide_True. 2:{ rewrite HL. by destruct (abs_ok _ _ W _ _ Hc). }
  destruct st as [w prev]. cbn [fst snd] in Hst.
  assert (ES : sgd_step bl p (w, prev) (t_num_rows f64_of_val (abs h b) ks, float_of <$> col) =
               train_step (A:=f64_arith) (dot_t bl) (dot_n bl) (lp_lr p) (lp_momentum p) (lp_decay p) (w, prev) (batch_data (abs h b) ks)).
  { etrans; [by apply sgd_step_spec|]. unfold batch_data, t_floats. rewrite Hc. done. }
  rewrite ES. set (st1 := train_step _ _ _ _ _ _ _).
  destruct (train_step_lengths bl (lp_lr p) (lp_momentum p) (lp_decay p) (w, prev) (batch_data (abs h b) ks) Hst) as [L1 L2].
  destruct (IH db1 st1) as (db' & E' & HD').
  { etrans; [exact L2|]. symmetry. exact L1. } { done. }
  { intros b' Hb'. apply HD1. destruct batches as [|x l]; [done|]. injection Hb' as ->. apply Forall_cons in F as [(_ & _ & ? & _) _]. lia. }
  exists db'. split; [exact E'|]. left. destruct HD' as [?|[_ ->]]; done.
Qed.
End train.
