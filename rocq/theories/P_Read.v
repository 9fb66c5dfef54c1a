(** Reading whole columns: CopyValuesToInterfaces, VecDense, LabelToInt. *)
From Verif Require Export Spec_Read P_Priv P_View3.

Section frame.
Context {rt : GoRT}.

Lemma copy_values_spec h d c : wf h d ->
  copy_values d c h = match any_col (abs h d) c with Some vs => Ok (vs, h) | None => Panic end.
Proof.
  intros [n W]. unfold copy_values, any_col. erewrite bind_eq by done. rewrite !abs_cols_lookup.
  repeat match goal with
  | |- context [mp h (r_maps (d_raw d)) !! ?k] =>
     let E := fresh in destruct (mp h (r_maps (d_raw d)) !! k) as [?|] eqn:E; simpl;
       [by apply (gather_col h d n _ _ W E)|]
  end. done.
Qed.

Lemma vec_dense_copy_spec h d c : wf h d ->
  vec_dense_copy d c h = match t_cols (abs h d) !! (KFloat, c) with
                         | Some vs => Ok (vs, h) | None => Panic end.
Proof.
  intros [n W]. rewrite abs_cols_lookup. unfold vec_dense_copy, access, bind, get_mp.
  destruct (mp h (r_maps (d_raw d)) !! (KFloat, c)) as [s|] eqn:E; simpl; [|done].
  by apply (gather_col h d n _ _ W E).
Qed.
Lemma vec_dense_spec h d c : wf h d ->
  vec_dense d c h = match t_cols (abs h d) !! (KFloat, c) with
                    | Some vs => Ok (vs, h) | None => Panic end.
Proof.
  intros [n W]. rewrite abs_cols_lookup. unfold vec_dense, access, bind, get_mp.
  destruct (mp h (r_maps (d_raw d)) !! (KFloat, c)) as [s|] eqn:E; simpl; [|done].
  destruct (d_viewed d) eqn:V; [by apply (gather_col h d n _ _ W E)|].
  unfold get_vals. destruct (wf_cont _ _ _ W V) as [Hi Hn].
  destruct (wfn_col _ _ _ _ _ W E) as (Hc & Hl & _).
  rewrite Hi, Hn, <- Hl, <- (col_ok_vals_length _ _ _ Hc), pick_seq_all. done.
Qed.

(** [m] maps the strings of [ks] to their positions. *)
Definition label_inv (ks : list string) (m : gmap string Z) : Prop :=
  NoDup ks /\ size m = length ks /\
  forall s o, m !! s = Some o <-> (0 <= o)%Z /\ ks !! Z.to_nat o = Some s.

Lemma label_inv_new ks m s : label_inv ks m -> m !! s = None ->
  label_inv (ks ++ [s]) (<[s := Z.of_nat (size m)]> m).
Proof.
  intros (Hnd & Hsz & Hm) Hs.
  assert (s ∉ ks) as Hn.
  { intros [i Hi]%elem_of_list_lookup.
    assert (m !! s = Some (Z.of_nat i)) as E by (apply Hm; rewrite Nat2Z.id; lia || by split; [lia|]).
    congruence. }
  split; [|split].
  - apply NoDup_app. split; [done|]. split; [|apply NoDup_singleton].
    intros x Hx ->%elem_of_list_singleton. done.
  - rewrite map_size_insert_None by done. rewrite app_length. simpl. lia.
  - intros x o. destruct (decide (x = s)) as [->|Hx].
    + rewrite lookup_insert. split.
      * intros [= <-]. split; [lia|]. rewrite Nat2Z.id, Hsz. by rewrite list_lookup_middle.
      * intros [Ho Hk]. f_equal. apply lookup_app_Some in Hk as [Hk|[Hk1 Hk2]].
        -- exfalso. apply Hn. by eapply elem_of_list_lookup_2.
        -- apply list_lookup_singleton_Some in Hk2 as [Hk2 _]. lia.
    + rewrite lookup_insert_ne by done. rewrite Hm. split.
      * intros [Ho Hk]. split; [done|]. by apply lookup_app_l_Some.
      * intros [Ho Hk]. split; [done|]. apply lookup_app_Some in Hk as [Hk|[Hk1 Hk2]]; [done|].
        apply list_lookup_singleton_Some in Hk2 as [_ Hk2]. congruence.
Qed.

Lemma prefix_lookup_lt_Some {A} (l l' : list A) i x : l `prefix_of` l' -> l !! i = Some x -> l' !! i = Some x.
Proof. intros [k ->] H. by apply lookup_app_l_Some. Qed.
Lemma first_seen_prefix vs : forall ks, ks `prefix_of` first_seen ks vs.
Proof.
  induction vs as [|v vs IH]; intros ks; [done|]. simpl.
  destruct v as [[|s|]| | |]; try apply IH. case_decide; [apply IH|].
  etrans; [|apply IH]. by apply prefix_app_r.
Qed.

Lemma label_loop_spec vs : forall ks m, label_inv ks m ->
  match label_loop m vs with
  | Ok (l, m') => Forall string_val vs /\ label_inv (first_seen ks vs) m' /\
      Forall2 (fun v o => match v with
                          | VObj (OStr s) => m' !! s = Some o
                          | _ => o = (-1)%Z end) vs l
  | Panic => Exists (fun v => ~ string_val v) vs
  end.
Proof.
  induction vs as [|v vs IH]; intros ks m Hm; [simpl; split; [constructor|]; split; [done|constructor]|].
  destruct v as [[|s|]| | |]; try (simpl; by left; intros ?).
  - simpl. specialize (IH ks m Hm). destruct (label_loop m vs) as [[l m']|]; simpl.
    + destruct IH as (? & ? & ?). split; [by constructor|]. split; [done|by constructor].
    + by right.
  - simpl. destruct (m !! s) as [o|] eqn:Es.
    + specialize (IH ks m Hm). rewrite decide_True.
      2:{ apply Hm in Es as [_ Es]. by eapply elem_of_list_lookup_2. }
      destruct (label_loop m vs) as [[l m']|]; simpl.
      * destruct IH as (F1 & F2 & F3). split; [by constructor|]. split; [done|].
        constructor; [|done]. apply F2. apply Hm in Es as [Ho Es]. split; [done|].
        eapply prefix_lookup_lt_Some; [apply first_seen_prefix|done].
      * by right.
    + assert (s ∉ ks) as Hns.
      { intros [i Hi]%elem_of_list_lookup.
        assert (m !! s = Some (Z.of_nat i)) by (apply Hm; rewrite Nat2Z.id; split; [lia|done]).
        congruence. }
      rewrite decide_False by done.
      specialize (IH (ks ++ [s]) _ (label_inv_new ks m s Hm Es)).
      destruct (label_loop _ vs) as [[l m']|]; simpl.
      * destruct IH as (F1 & F2 & F3). split; [by constructor|]. split; [done|].
        constructor; [|done]. apply F2. split; [lia|]. rewrite Nat2Z.id.
        eapply prefix_lookup_lt_Some; [apply first_seen_prefix|].
        destruct Hm as (_ & -> & _). by rewrite list_lookup_middle.
      * by right.
Qed.

Lemma label_inv_empty : label_inv [] ∅.
Proof.
  split; [constructor|]. split; [apply map_size_empty|]. intros s o. rewrite lookup_empty, lookup_nil.
  naive_solver.
Qed.

Lemma label_to_int_spec h d c col : wf h d -> t_cols (abs h d) !! (KObj, c) = Some col ->
  match label_to_int d c h with
  | Ok ((l, m), h') => h' = h /\ c ∈ t_strs (abs h d) /\ Forall string_val col /\
      label_inv (first_seen [] col) m /\
      Forall2 (fun v o => match v with
                          | VObj (OStr s) => m !! s = Some o
                          | _ => o = (-1)%Z end) col l
  | Panic => c ∉ t_strs (abs h d) \/ Exists (fun v => ~ string_val v) col
  end.
Proof.
  intros [n W] Hc. unfold label_to_int. erewrite bind_eq by done.
  rewrite abs_cols_lookup in Hc.
  destruct (mp h (r_maps (d_raw d)) !! (KObj, c)) as [s|] eqn:E; [|done]. injection Hc as Hc.
  case_decide as Hd; [|by left].
  erewrite bind_eq by done. rewrite E. simpl.
  destruct (gather_col h d n _ _ W E) as [G _]. erewrite bind_eq by done. rewrite Hc.
  pose proof (label_loop_spec col [] ∅ label_inv_empty) as L. unfold lift.
  destruct (label_loop ∅ col) as [[l m]|]; [|by right].
  destruct L as (? & ? & ?). done.
Qed.
End frame.
