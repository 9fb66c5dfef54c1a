(** Loops that replace the cells at a list of addresses, one after the other. *)
From Verif Require Export P_Over.

Notation addr := (nat * nat)%type.

Lemma upd_id h a v : cell_val h a = Some v -> upd h a v = h.
Proof.
  intros H. unfold upd, set_arr. unfold cell_val in H. rewrite (list_insert_id (arr h a.1) a.2 v H).
  destruct h as [ha hm hp hs hr]. simpl. f_equal. unfold arr. simpl.
  destruct (ha !! a.1) as [x|] eqn:E; simpl.
  - by apply list_insert_id.
  - apply list_insert_ge. by apply lookup_ge_None.
Qed.

(** Heaps with the same cells are the same. *)
Lemma wrt_eq h h' : wrt h h' -> (forall a, cell_val h' a = cell_val h a) -> h' = h.
Proof.
  intros H Hc. destruct H as [H1 H2 H3 H4 H5 H6], h as [ha hm hp hs hr], h' as [ha' hm' hp' hs' hr'].
  simpl in *. subst. f_equal. apply list_eq. intros a.
  destruct (ha !! a) as [x|] eqn:E.
  - destruct (lookup_lt_is_Some_2 ha' a) as [y Ey]; [apply lookup_lt_Some in E; lia|]. rewrite Ey. f_equal.
    apply list_eq. intros i. specialize (Hc (a, i)). unfold cell_val, arr in Hc. simpl in Hc. by rewrite E, Ey in Hc.
  - apply lookup_ge_None in E. apply lookup_ge_None. lia.
Qed.

(** [f] tells what becomes of a value: [Ok None] stops the loop. *)
Fixpoint crun (f : val -> res (option val)) (al : list addr) (j : nat) : M (option nat) :=
  match al with
  | [] => ret None
  | a :: al => fun h =>
      match cell_val h a with
      | None => Panic
      | Some v =>
          match f v with
          | Panic => Panic
          | Ok None => Ok (Some j, h)
          | Ok (Some v') => crun f al (S j) (upd h a v')
          end
      end
  end.

(** All cells of [al] have been replaced, the others have not changed. *)
Definition mapped (f : val -> res (option val)) (al : list addr) (h h' : heap) : Prop :=
  wrt h h' /\ (forall b, b ∉ al -> cell_val h' b = cell_val h b) /\
  (forall a, a ∈ al -> exists v v', cell_val h a = Some v /\ f v = Ok (Some v') /\ cell_val h' a = Some v').

Definition keeps_kind (f : val -> res (option val)) : Prop :=
  forall v v', f v = Ok (Some v') -> kind_of v' = kind_of v.

Lemma cell_val_lt h a v : cell_val h a = Some v -> a.1 < length (h_arr h) /\ a.2 < length (arr h a.1).
Proof.
  unfold cell_val. intros H. split; [|by apply lookup_lt_Some in H].
  destruct (decide (a.1 < length (h_arr h))) as [|Hge]; [done|]. rewrite arr_ge in H by lia. done.
Qed.

Lemma mapped_nil f h : mapped f [] h h.
Proof. split; [done|]. split; [done|]. intros a Ha. by apply elem_of_nil in Ha. Qed.
Lemma mapped_app f al bl h h1 h2 : (forall a, a ∈ al -> a ∉ bl) ->
  mapped f al h h1 -> mapped f bl h1 h2 -> mapped f (al ++ bl) h h2.
Proof.
  intros Hd (W1 & U1 & A1) (W2 & U2 & A2). split; [by etrans|]. split.
  - intros b Hb. apply not_elem_of_app in Hb as [Hb1 Hb2]. by rewrite U2, U1.
  - intros a Ha. apply elem_of_app in Ha as [Ha|Ha].
    + destruct (A1 a Ha) as (v & v' & ? & ? & ?). exists v, v'. rewrite U2 by auto. done.
    + destruct (A2 a Ha) as (v & v' & ? & ? & ?). exists v, v'. rewrite <- (U1 a); [done|]. intros ?. by eapply Hd.
Qed.
(** Undoing a replacement. *)
Lemma mapped_undo f g al bl h h1 h2 : (forall a, a ∈ al <-> a ∈ bl) ->
  mapped f al h h1 -> mapped g bl h1 h2 ->
  (forall a v v', a ∈ al -> cell_val h a = Some v -> f v = Ok (Some v') -> g v' = Ok (Some v)) -> h2 = h.
Proof.
  intros He (W1 & U1 & A1) (W2 & U2 & A2) Hinv. apply wrt_eq; [by etrans|]. intros a.
  destruct (decide (a ∈ al)) as [Ha|Ha].
  - destruct (A1 a Ha) as (v & v' & E1 & E2 & E3). destruct (A2 a) as (w & w' & F1 & F2 & F3); [by apply He|].
    assert (w = v') as -> by congruence. rewrite (Hinv a v v' Ha E1 E2) in F2. congruence.
  - rewrite U2, U1; [done..|]. by rewrite <- He.
Qed.

Lemma crun_spec f al : forall j h, keeps_kind f -> NoDup al ->
  (forall a, a ∈ al -> exists v, cell_val h a = Some v) ->
  match crun f al j h with
  | Ok (None, h') => mapped f al h h'
  | Ok (Some w, h') => exists i a v, w = j + i /\ al !! i = Some a /\ cell_val h a = Some v /\ f v = Ok None /\
      mapped f (take i al) h h'
  | Panic => exists a v, a ∈ al /\ cell_val h a = Some v /\ f v = Panic
  end.
Proof.
  induction al as [|a al IH]; intros j h Hk Hnd Hv; cbn [crun].
  { apply mapped_nil. }
  apply NoDup_cons in Hnd as [Hni Hnd]. destruct (Hv a) as [v Ev]; [set_solver|]. rewrite Ev.
  destruct (f v) as [[v'|]|] eqn:Ef.
  - destruct (cell_val_lt _ _ _ Ev) as [L1 L2].
    assert (Hc : forall b, cell_val (upd h a v') b = if decide (b = a) then Some v' else cell_val h b)
      by (intros b; by apply upd_cell_val).
    assert (W0 : wrt h (upd h a v')) by (eapply upd_wrt; [done|by apply Hk]).
    assert (M1 : mapped f [a] h (upd h a v')).
    { split; [done|]. split.
      - intros b Hb. rewrite Hc, decide_False by set_solver. done.
      - intros b ->%elem_of_list_singleton. exists v, v'. rewrite Hc, decide_True by done. done. }
    specialize (IH (S j) (upd h a v') Hk Hnd).
    assert (Hv2 : forall b, b ∈ al -> cell_val (upd h a v') b = cell_val h b).
    { intros b Hb. rewrite Hc, decide_False; [done|]. intros ->. done. }
    destruct (crun f al (S j) (upd h a v')) as [[[w|] h']|].
    + destruct IH as (i & b & u & -> & Hi & Hu & Hf & Hm).
      { intros b Hb. rewrite Hv2 by done. apply Hv. set_solver. }
      exists (S i), b, u. split; [lia|]. split; [done|]. split; [rewrite <- Hv2; [done|by eapply elem_of_list_lookup_2]|].
      split; [done|]. cbn [take]. change (a :: take i al) with ([a] ++ take i al).
      eapply mapped_app; [|done|done]. intros x ->%elem_of_list_singleton Hx. apply Hni.
      by eapply elem_of_take in Hx as (? & ?%elem_of_list_lookup_2 & _).
    + change (a :: al) with ([a] ++ al). eapply mapped_app; [|done|apply IH].
      * intros x ->%elem_of_list_singleton. done.
      * intros b Hb. rewrite Hv2 by done. apply Hv. set_solver.
    + destruct IH as (b & u & Hb & Hu & Hf).
      { intros b Hb. rewrite Hv2 by done. apply Hv. set_solver. }
      exists b, u. split; [set_solver|]. split; [by rewrite <- Hv2|done].
  - exists 0, a, v. split; [lia|]. do 3 (split; [done|]). apply mapped_nil.
  - exists a, v. set_solver.
Qed.
(** The loop goes to the end if every value can be replaced. *)
Lemma crun_total f al j h : keeps_kind f -> NoDup al ->
  (forall a, a ∈ al -> exists v v', cell_val h a = Some v /\ f v = Ok (Some v')) ->
  exists h', crun f al j h = Ok (None, h') /\ mapped f al h h'.
Proof.
  intros Hk Hnd Hv. pose proof (crun_spec f al j h Hk Hnd) as H.
  destruct (crun f al j h) as [[[w|] h']|].
  - destruct H as (i & a & v & _ & Hi & E & F & _); [naive_solver|].
    destruct (Hv a) as (u & u' & ? & ?); [by eapply elem_of_list_lookup_2|]. congruence.
  - exists h'. split; [done|]. apply H. naive_solver.
  - destruct H as (a & v & Ha & E & F); [naive_solver|].
    destruct (Hv a Ha) as (u & u' & ? & ?). congruence.
Qed.
Lemma mapped_perm f al bl h h' : (forall a, a ∈ al <-> a ∈ bl) -> mapped f al h h' -> mapped f bl h h'.
Proof.
  intros He (W & U & A). split; [done|]. split.
  - intros b Hb. apply U. by rewrite He.
  - intros a Ha. apply A. by rewrite He.
Qed.

(** The addresses of the visible cells of a slice. *)
Definition sl_addr (s : slice) (i : nat) : addr := (s_arr s, s_off s + i).
Lemma sl_addr_inj s : Inj (=) (=) (sl_addr s).
Proof. intros i j E. injection E. lia. Qed.
Lemma sl_rd_cell s i h : i < s_len s -> sl_rd s i h = match cell_val h (sl_addr s i) with Some v => Ok (v, h) | None => Panic end.
Proof. intros Hi. unfold sl_rd, cell_val, sl_addr. simpl. by rewrite sl_vals_lookup. Qed.
Lemma sl_wr_cell s i v h : i < s_len s -> sl_wr s i v h = Ok (tt, upd h (sl_addr s i) v).
Proof. intros Hi. unfold sl_wr. by rewrite decide_True. Qed.

(** Every visible cell of a dataframe is stored at a place of its own: no row is
    repeated and no two columns overlap. *)
Definition cells_distinct (h : heap) (d : dframe) : Prop :=
  forall k1 k2 j1 j2 a, cell_of h d k1 j1 = Some a -> cell_of h d k2 j2 = Some a -> k1 = k2 /\ j1 = j2.
Definition cells_distinct_b (h : heap) (d : dframe) : bool :=
  bool_decide (NoDup (inds d)) && bool_decide (NoDup ((fun p : key * slice => s_arr p.2) <$> map_to_list (mp h (r_maps (d_raw d))))).
Lemma cells_distinct_sound h d : cells_distinct_b h d = true -> cells_distinct h d.
Proof.
  unfold cells_distinct_b. rewrite andb_true_iff, !bool_decide_eq_true. intros [H1 H2] k1 k2 j1 j2 a Ha1 Ha2.
  unfold cell_of in Ha1, Ha2.
  destruct (mp h (r_maps (d_raw d)) !! k1) as [s1|] eqn:E1; [|done].
  destruct (mp h (r_maps (d_raw d)) !! k2) as [s2|] eqn:E2; [|done]. simpl in Ha1, Ha2.
  destruct (inds d !! j1) as [i1|] eqn:I1; [|done]. destruct (inds d !! j2) as [i2|] eqn:I2; [|done].
  simpl in Ha1, Ha2. injection Ha1 as <-. injection Ha2 as Hq1 Hq2.
  assert (Hk : k1 = k2).
  { apply elem_of_map_to_list, elem_of_list_lookup in E1 as (n1 & E1). apply elem_of_map_to_list, elem_of_list_lookup in E2 as (n2 & E2).
    assert (n1 = n2) as ->.
    { eapply NoDup_lookup; [exact H2| |]; rewrite list_lookup_fmap; [by rewrite E1|rewrite E2; simpl; congruence]. }
    congruence. }
  subst k2. split; [done|]. assert (s1 = s2) as -> by congruence. assert (i1 = i2) as -> by lia.
  eapply NoDup_lookup; [exact H1|exact I1|exact I2].
Qed.
