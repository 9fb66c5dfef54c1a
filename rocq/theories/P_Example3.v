(** The experiment of examples/linreg.go: the numbers and names of the models. *)
From Verif Require Import M_Example P_Check.
From Verif Require Export P_Example2.
From Verif Require Import P_View2 P_AutoMain P_Auto6 P_Auto5 P_Auto4 P_Hash P_Check.
Local Open Scope nat_scope.

(** ** Float columns of prepared tables *)
Lemma iter_f64 f n x : (forall x, is_f64 x -> is_f64 (f x)) -> is_f64 x -> is_f64 (Nat.iter n f x).
Proof. intros Hf Hx. induction n as [|n IH]; [done|]. cbn. by apply Hf. Qed.
Lemma good_update n F g t : (forall c x, is_f64 x -> is_f64 (g c x)) -> good_floats t -> good_floats (t_update_n n F g t).
Proof.
  intros Hg H c. specialize (H c). destruct (decide (c ∈ F)) as [Hc|Hc].
  - unfold t_floats in *. rewrite t_update_n_in by done. destruct (t_cols t !! (KFloat, c)) as [col|]; [|done]. cbn in *.
    rewrite Forall_forall in H |- *. intros x Hx. apply elem_of_list_fmap in Hx as (v & -> & Hv). unfold repeat_floats in Hv.
    apply elem_of_list_lookup in Hv as (j & Hj). rewrite list_lookup_imap in Hj. destruct (col !! j) as [w|] eqn:E; [|done]. cbn in Hj. injection Hj as <-. cbn.
    apply iter_f64; [by intros y; apply Hg|]. apply H, elem_of_list_fmap. exists w. split; [done|]. by eapply elem_of_list_lookup_2.
  - unfold t_floats in *. rewrite t_update_n_other; [done|by right].
Qed.
Lemma good_prep_floats n p t : auto_nums is_f64 p -> good_floats t -> good_floats (prep_floats n p t).
Proof.
  intros [H1 H2] H. unfold prep_floats.
  assert (HA : good_floats (match ap_imputer p with Some f => t_update (dom f) (impute_with f) t | None => t end)).
  { destruct (ap_imputer p) as [f|] eqn:E; [|done]. rewrite t_update_1. apply good_update; [|done]. intros c x Hx. unfold impute_with. destruct (decide _); [|done].
    destruct (f !! c) eqn:Ec; [by eapply (H1 f eq_refl)|done]. }
  destruct (ap_scaler p) as [s|] eqn:E; [|done]. apply good_update; [|done]. intros c x Hx. unfold scale_with. destruct (H2 s eq_refl) as [S1 S2].
  apply is_f64_mul; [apply is_f64_add; [done|]|].
  - destruct (sc_shift s !! c) eqn:Ec; [by eapply S1|done].
  - destruct (sc_scale s !! c) eqn:Ec; [by eapply S2|done].
Qed.
Lemma good_prepared n p t t' : auto_nums is_f64 p -> has_inputs p t -> good_floats t -> prepared_as n p t t' -> good_floats t'.
Proof.
  intros HN HI HG HP. pose proof (good_prep_floats n p t HN HG) as H1.
  assert (H2 : good_floats (prep_strings p (prep_floats n p t))).
  { unfold prep_strings. destruct (ap_hash p) as [cols|] eqn:E; [|done]. intros c. unfold t_floats. rewrite C24_hashed_columns_main.
    - destruct (decide _); [constructor|]. apply H1.
    - intros c' Hc'. apply prep_floats_dom. destruct HI as (_ & _ & I3 & _). by eapply I3. }
  unfold prepared_as in HP. destruct (ap_onehot p) as [e|]; [|by subst t']. intros c. unfold t_floats. rewrite (ec_others _ _ _ HP) by (by left).
  destruct (decide _); [constructor|]. apply H2.
Qed.
Lemma good_cell t k j : t_ok t -> good_floats t -> is_f64 (f64_of_val (default (VInt 0) (default [] (t_cols t !! k) !! j))).
Proof.
  intros Hok HG. destruct (t_cols t !! k) as [col|] eqn:E; cbn; [|done]. destruct (col !! j) as [v|] eqn:Ej; cbn; [|done].
  destruct (Hok k col E) as [_ Hk]. rewrite Forall_forall in Hk. specialize (Hk v (elem_of_list_lookup_2 _ _ _ Ej)).
  destruct v as [o|x|z|b]; cbn; [done| |apply is_f64_Z|by destruct b]. destruct k as [k c]. cbn in Hk. subst k.
  specialize (HG c). unfold t_floats in HG. rewrite E in HG. cbn in HG. rewrite Forall_forall in HG. apply HG, elem_of_list_fmap. exists (VFloat x). split; [done|].
  by eapply elem_of_list_lookup_2.
Qed.

(** ** Training stays in float64 *)
Section step.
Context (bl : blas f64_arith) (Hbl : blas_f64 bl) (prm : lr_params f64_arith) (Hprm : params_f64 prm).
Lemma nth0_f64 l j : Forall is_f64 l -> is_f64 (nth0 (A:=f64_arith) l j).
Proof.
  intros H. assert (HX : forall o : option f64, (forall x, o = Some x -> is_f64 x) -> is_f64 (default (S754_zero false) o)) by (intros [x|] Hx; [by apply Hx|done]).
  apply HX. intros x Hx. rewrite Forall_forall in H. apply H. by eapply elem_of_list_lookup_2.
Qed.
Lemma axpy_f64 x a y : is_f64 x -> is_f64 a -> is_f64 y -> is_f64 (axpy (A:=f64_arith) x a y).
Proof. intros Hx Ha Hy. unfold axpy. destruct (a_eq _ _ _); [done|]. apply is_f64_add; [done|]. by apply is_f64_mul. Qed.
Lemma grad_f64 w prev rows y j : Forall is_f64 w -> Forall is_f64 prev -> Forall (Forall is_f64) rows -> Forall is_f64 y ->
  is_f64 (step_grad (A:=f64_arith) (dot_t bl) (dot_n bl) (lp_momentum prm) w prev rows y j).
Proof.
  intros Hw Hp Hr Hy. unfold step_grad.
  assert (H : is_f64 (dot_n bl ((fun x => nth0 (A:=f64_arith) x j) <$> rows) (zip_with (fun x t => a_sub f64_arith (dot_t bl x w) t) rows y))).
  { apply Hbl.
    - apply Forall_fmap. eapply Forall_impl; [exact Hr|]. intros x Hx. by apply nth0_f64.
    - clear -Hbl Hw Hr Hy. revert y Hy. induction Hr as [|x rows Hx Hr IH]; intros [|v y] Hy; cbn; try constructor.
      + apply Forall_cons in Hy as [Hv _]. apply is_f64_sub; [by apply Hbl|done].
      + apply IH. by apply Forall_cons in Hy as [_ Hy]. }
  destruct (a_lt f64_arith _ _); [|exact H]. apply axpy_f64; [exact H|apply Hprm|by apply nth0_f64].
Qed.
Lemma step_f64 st b : Forall is_f64 st.1 -> Forall is_f64 st.2 -> Forall (Forall is_f64) b.1 -> Forall is_f64 b.2 ->
  let st' := train_step (A:=f64_arith) (dot_t bl) (dot_n bl) (lp_lr prm) (lp_momentum prm) (lp_decay prm) st b in
  Forall is_f64 st'.1 /\ Forall is_f64 st'.2.
Proof.
  intros Hw Hp Hr Hy. cbv zeta. unfold train_step. cbn [fst snd]. split.
  - apply Forall_fmap, Forall_forall. intros j _. unfold compose, step_weight.
    assert (H : is_f64 (axpy (A:=f64_arith) (nth0 (A:=f64_arith) st.1 j) (a_opp f64_arith (lp_lr prm)) (step_grad (A:=f64_arith) (dot_t bl) (dot_n bl) (lp_momentum prm) st.1 st.2 b.1 b.2 j))).
    { apply axpy_f64; [by apply nth0_f64|apply is_f64_opp, Hprm|by apply grad_f64]. }
    destruct (a_lt f64_arith _ _); [|exact H]. apply is_f64_mul; [|exact H]. apply is_f64_sub; [exact eq_refl|apply Hprm].
  - destruct (a_lt f64_arith _ _); [|done]. apply Forall_fmap, Forall_forall. intros j _. unfold compose. by apply grad_f64.
Qed.
Lemma steps_f64 bs : forall st, Forall is_f64 st.1 -> Forall is_f64 st.2 -> Forall (fun b => Forall (Forall is_f64) b.1 /\ Forall is_f64 b.2) bs ->
  Forall is_f64 (foldl (train_step (A:=f64_arith) (dot_t bl) (dot_n bl) (lp_lr prm) (lp_momentum prm) (lp_decay prm)) st bs).1.
Proof.
  induction bs as [|b bs IH]; intros st H1 H2 Hb; [done|]. apply Forall_cons in Hb as [[B1 B2] Hb]. cbn. destruct (step_f64 st b H1 H2 B1 B2) as [S1 S2]. by apply IH.
Qed.
Lemma trained_f64 norm target t a b reg : (forall i, is_f64 (norm i)) -> t_ok t -> good_floats t -> trained bl norm prm target t a b reg -> linreg_nums is_f64 reg.
Proof.
  intros Hnorm Hok HG (E1 & E2 & _ & _ & ks & epochs & _ & _ & _ & Ew).
  destruct (fit_col_f64 (ScalerOpt false true true) (t_floats t target) (HG target)) as [Fa Fb]. rewrite E1 in Fa, Fb. cbn in Fa, Fb.
  assert (Ha : is_f64 a) by (by apply Fa). assert (Hb : is_f64 b) by (by apply Fb). split.
  - intros s Hs. rewrite E2 in Hs. injection Hs as <-. split; intros c x; cbn; intros Hx; apply lookup_singleton_Some in Hx as [_ <-]; done.
  - rewrite Ew. apply steps_f64.
    + apply Forall_fmap, Forall_forall. intros i _. unfold compose. apply is_f64_mul; [apply Hnorm|]. apply is_f64_sqrt, is_f64_div; apply is_f64_Z.
    + apply Forall_replicate. done.
    + apply Forall_fmap, Forall_forall. intros q _. unfold compose, part_data. cbn [fst snd]. split; apply Forall_fmap, Forall_forall; intros j _; unfold compose.
      * unfold t_num_row. apply Forall_fmap, Forall_forall. intros k _. unfold compose. by apply good_cell.
      * unfold scaled. apply is_f64_mul; [apply is_f64_add; [|done]|done]. destruct (t_floats t target !! j) eqn:E; [|done]. cbn.
        specialize (HG target). rewrite Forall_forall in HG. apply HG. by eapply elem_of_list_lookup_2.
Qed.
End step.
