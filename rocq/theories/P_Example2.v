(** The experiment of examples/linreg.go: preparing and training. *)
From Verif Require Import M_Example P_Check.
From Verif Require Export P_Example.
From Verif Require Import P_View2 P_AutoMain P_Auto6 P_Auto5 P_Auto4 P_Hash P_Check.
Local Open Scope nat_scope.

Section example.
Context {rt : GoRT} (order : gset string -> list string) (Ho : forall X, order X ≡ₚ elements X).
Context (ord : string -> bool -> gset Z -> list Z) (Hord : forall c b X, ord c b X ≡ₚ elements X).

Lemma rest_ind p cols d h v h' : auto_rest order p cols d h = Ok ((p, v), h') -> d_ind v = d_ind d.
Proof.
  unfold auto_rest. intros H. apply bind_inv in H as (r & h1 & _ & H). apply bind_inv in H as (f & h2 & _ & H).
  apply bind_inv in H as (? & h3 & _ & H). apply bind_inv in H as (s & h4 & _ & H). apply bind_inv in H as (? & h5 & _ & H).
  injection H as <- <-. done.
Qed.
Lemma fit_transform_ind opt d h p v h' : wf h d -> strings_ok (abs h d) ->
  auto_fit_transform order ord (new_auto opt) d h = Ok ((p, v), h') -> d_ind v = d_ind d.
Proof.
  intros W HS. rewrite fit_transform_eq. pose proof (train_spec order Ho ord Hord opt h d W HS) as H. unfold bind at 1.
  destruct (auto_train order ord (new_auto opt) d h) as [[[[p' w] cols] h1]|]; [|done]. destruct H as (_ & _ & _ & Ei & _). cbn [fst snd].
  destruct (ap_onehot p') as [e|].
  - intros H. apply bind_inv in H as (x & h2 & Eo & H). destruct x as [x|]; [|done].
    assert (E : p = p') by (clear -H; unfold auto_rest in H; repeat (apply bind_inv in H as (? & ? & _ & H)); by injection H as <- _ _). subst p'.
    apply rest_ind in H. rewrite H, <- Ei. by eapply oh_transform_ind.
  - destruct (_ && _).
    + intros [= <- <- <-]. done.
    + intros H. assert (E : p = p') by (clear -H; unfold auto_rest in H; repeat (apply bind_inv in H as (? & ? & _ & H)); by injection H as <- _ _). subst p'.
      apply rest_ind in H. by rewrite H.
Qed.

Lemma fit_transform_spec opt h d : wf h d -> unique_names (abs h d) -> strings_ok (abs h d) -> no_clash (abs h d) -> good_names (abs h d) ->
  ao_imputing opt = true /\ ao_scaling opt = true \/ ao_imputing opt = false /\ ao_scaling opt = false /\ (forall c, ~ categorical (abs h d) c) ->
  match auto_fit_transform order ord (new_auto opt) d h with
  | Ok ((p, v), h') => wf h' v /\ preserved h h' /\ inds v = inds d /\ auto_fitted opt (abs h d) p /\ auto_names p /\
      prepared_as (reps d) p (abs h d) (abs h' v) /\ (t_rows (abs h d) <> 0 \/ forall c, ~ categorical (abs h d) c)
  | Panic => t_rows (abs h d) = 0 /\ exists c, categorical (abs h d) c
  end.
Proof.
  intros W HU HS HN HG HO. pose proof (C58_fit_transform_partial_main order Ho ord Hord opt h d W HU HS HN HO) as H.
  pose proof (C58_fit_main order Ho ord Hord opt h d W HS) as HF.
  destruct (auto_fit_transform order ord (new_auto opt) d h) as [[[p v] h']|] eqn:E; [|by rewrite H in HF].
  destruct H as (Wv & P & h1 & E1 & HT). rewrite E1 in HF. destruct HF as (P1 & HA & Hz). split; [done|]. split; [done|].
  split; [unfold inds; by rewrite (fit_transform_ind opt d h p v h' W HS E)|]. split; [done|]. split.
  { eapply auto_fitted_names; [done|done|done|]. intros e c He Hc. destruct (auto_fit_onehot_from _ _ _ _ _ _ _ _ E1 He) as (x & h2 & h3 & Eo). by eapply oh_fit_maps. }
  split; [|done]. destruct (HT order Ho) as (w & h2 & E2 & W2 & P2 & <-).
  destruct (P1 d W) as [W1 A1].
  destruct (transform_spec order Ho opt (abs h d) p h1 d HA HN W1) as (w' & h3 & E3 & _ & _ & _ & A3);
    [by rewrite A1|rewrite A1; apply HS|rewrite A1; by eapply fitted_inputs|]. rewrite E2 in E3. injection E3 as <- <-. by rewrite A1 in A3.
Qed.

(** ** Training *)
Context (bl : blas f64_arith).
Lemma fit_once norm rnds h d target (prm : lr_params f64_arith) : wf h d -> NoDup (inds d) -> is_Some (t_cols (abs h d) !! (KFloat, target)) ->
  target <> "_target" -> t_cols (abs h d) !! (KFloat, "_target") = None -> t_cols (abs h d) !! (KBool, "_target") = None ->
  let t := abs h d in
  let panics := (forall c, ~ feature t target c) \/ (lp_batch prm < 0)%Z \/ (lp_epochs prm < 0)%Z \/
                (0 < lp_epochs prm)%Z /\ (lp_batch prm = 0%Z \/ t_rows t = 0) in
  match lr_fit bl order norm rnds d target prm h with
  | Ok (reg, h') => ~ panics /\ preserved h h' /\ length (lr_weights reg) = length (lr_features reg) /\ exists a b, trained bl norm prm target t a b reg
  | Panic => panics
  end.
Proof.
  intros W Hnd HT H1 H2 H3 t panics. pose proof (C60_fit_partial_main bl order Ho norm rnds h d target prm W HT H1 H2 H3) as H. cbv zeta in H.
  assert (HR : t_rows t = num_rows d) by done. fold t in H. rewrite <- HR in H. fold panics in H.
  destruct (lr_fit bl order norm rnds d target prm h) as [[reg h']|]; [|done]. destruct H as (Hp & P & a & b & ks & epochs & E1 & E2 & E3 & E4 & E5 & E6 & E7 & E8 & E9).
  split; [done|]. split; [done|]. split; [done|]. exists a, b. do 4 (split; [done|]). exists ks, epochs. do 3 (split; [done|]). cbv zeta. rewrite E9.
  f_equal. f_equal. apply list_fmap_ext. intros i0 q Hq%elem_of_list_lookup_2. unfold part_data. f_equal. apply list_fmap_ext. intros i1 j Hj%elem_of_list_lookup_2.
  assert (Hlt : j < num_rows d).
  { rewrite <- HR. apply elem_of_list_In, in_concat in Hq as (e & He & Hqe). apply elem_of_list_In in He. rewrite Forall_forall in E8. destruct (E8 _ He) as (Hperm & _).
    assert (Hjs : j ∈ concat e) by (apply elem_of_list_In, in_concat; exists q; split; [done|by apply elem_of_list_In]). rewrite Hperm in Hjs. apply elem_of_seq in Hjs. lia. }
  rewrite reps_once; [done|done|]. destruct W as [n W]. by rewrite (wfn_inds_length _ _ _ W).
Qed.
End example.
