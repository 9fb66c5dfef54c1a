(** CheckConsistency: C83. *)
From Verif Require Import M_Check.
From Verif Require Export P_Base.
From Verif Require Import P_Check.

Lemma lengths_are_spec n ord k : lengths_are n ord k = true <-> forall p, p ∈ ord -> p.1.1 = k -> s_len p.2 = n.
Proof.
  induction ord as [|p ord IH]; cbn [lengths_are].
  { split; [|done]. intros _ p Hp. by apply elem_of_nil in Hp. }
  destruct (decide _) as [[H1 H2]|H].
  - split; [done|]. intros H. destruct H2. apply H; [left|done].
  - rewrite IH. split.
    + intros H' q Hq Hk. apply elem_of_cons in Hq as [->|Hq]; [|by apply H']. destruct (decide (s_len p.2 = n)); [done|tauto].
    + intros H' q Hq. apply H'. by right.
Qed.
Lemma no_string_spec vs : no_string vs = true <-> forall s, VObj (OStr s) ∉ vs.
Proof.
  induction vs as [|v vs IH].
  { split; [|done]. intros _ s Hs. by apply elem_of_nil in Hs. }
  assert (H : (exists s, v = VObj (OStr s)) \/ no_string (v :: vs) = no_string vs /\ forall s, v <> VObj (OStr s)).
  { destruct v as [[|s|i]|x|z|b]; cbn; eauto. }
  destruct H as [[s ->]|[-> H]].
  - split; [done|]. intros H. destruct (H s). left.
  - rewrite IH. split; intros H' s; specialize (H' s); rewrite ?elem_of_cons in *; intuition congruence.
Qed.
Lemma nar_ord_len ord n : (forall p, p ∈ ord -> s_len p.2 = n) -> ord <> [] -> nar_ord ord = n.
Proof.
  intros H Hne. assert (HF : forall k s, first_kind k ord = Some s -> s_len s = n).
  { intros k s Hk. unfold first_kind in Hk. destruct (filter _ ord) as [|p l] eqn:E; [done|]. cbn in Hk. injection Hk as <-. apply H.
    assert (Hp : p ∈ filter (fun p : key * slice => p.1.1 = k) ord) by (rewrite E; left). by apply elem_of_list_filter in Hp as [_ ?]. }
  unfold nar_ord. destruct (first_kind KObj ord) as [s|] eqn:E1; [by eapply HF|]. destruct (first_kind KFloat ord) as [s|] eqn:E2; [by eapply HF|].
  destruct (first_kind KInt ord) as [s|] eqn:E3; [by eapply HF|]. destruct (first_kind KBool ord) as [s|] eqn:E4; [by eapply HF|].
  exfalso. destruct ord as [|[[k c] s] ord]; [done|]. unfold first_kind in *. rewrite filter_cons in E1, E2, E3, E4.
  destruct k; [rewrite decide_True in E1 by done|rewrite decide_True in E2 by done|rewrite decide_True in E3 by done|rewrite decide_True in E4 by done]; done.
Qed.
(** CheckConsistency succeeds exactly on raw data whose columns have the same
    length, whose string columns exist, and whose other object columns hold no strings. *)
Lemma C83_check_main (ord : list (key * slice)) (r : raw) (h : heap) : let m := mp h (r_maps r) in
  ord ≡ₚ map_to_list m ->
  check_consistency ord r h = true <->
  (exists n, forall k s, m !! k = Some s -> s_len s = n) /\
  (forall c, c ∈ ostr h (r_strs r) -> is_Some (m !! (KObj, c))) /\
  (forall c s, m !! (KObj, c) = Some s -> c ∉ ostr h (r_strs r) -> forall x, VObj (OStr x) ∉ sl_vals h s).
Proof.
  intros m Hord. assert (HE : forall k s, m !! k = Some s <-> (k, s) ∈ ord). { intros k s. by rewrite Hord, elem_of_map_to_list. }
  unfold check_consistency. fold m. set (n := nar_ord ord).
  assert (HL : (lengths_are n ord KObj = true /\ lengths_are n ord KFloat = true /\ lengths_are n ord KInt = true /\ lengths_are n ord KBool = true) <->
    exists n, forall k s, m !! k = Some s -> s_len s = n).
  { rewrite !lengths_are_spec. split.
    - intros (H1 & H2 & H3 & H4). exists n. intros [k c] s Hk. apply HE in Hk. destruct k; [by apply (H1 _ Hk)|by apply (H2 _ Hk)|by apply (H3 _ Hk)|by apply (H4 _ Hk)].
    - intros [n' Hn']. assert (Hn : forall p, p ∈ ord -> s_len p.2 = n).
      { intros p Hp. assert (HA : forall q : key * slice, q ∈ ord -> s_len q.2 = n') by (intros [k s] Hq; apply (Hn' k), HE, Hq).
        rewrite (HA p Hp). symmetry. apply nar_ord_len; [exact HA|]. intros ->. by apply elem_of_nil in Hp. }
      split_and!; intros p Hp _; by apply Hn. }
  set (strs := ostr h (r_strs r)).
  assert (HS : forallb (fun c => bool_decide (is_Some (m !! (KObj, c)))) (elements strs) = true <-> forall c, c ∈ strs -> is_Some (m !! (KObj, c))).
  { rewrite forallb_forall. split.
    - intros H c Hc. apply elem_of_elements, elem_of_list_In, H, bool_decide_eq_true in Hc. done.
    - intros H c Hc. apply bool_decide_eq_true, H. by apply elem_of_elements, elem_of_list_In. }
  set (f := fun p : key * slice => _).
  assert (HN : forallb f ord = true <-> forall c s, m !! (KObj, c) = Some s -> c ∉ strs -> forall x, VObj (OStr x) ∉ sl_vals h s).
  { rewrite forallb_forall. split.
    - intros H c s Hc Hs. apply HE, elem_of_list_In, H in Hc. unfold f in Hc. cbn [fst snd] in Hc. destruct (decide (KObj = KObj)); [|done]. destruct (decide (c ∈ strs)); [done|]. by apply no_string_spec.
    - intros H [[k c] s] Hp. unfold f. cbn. destruct (decide (k = KObj)) as [->|]; [|done]. destruct (decide (c ∈ strs)); [done|].
      apply no_string_spec. apply (H c); [|done]. by apply HE, elem_of_list_In. }
  rewrite <- HL, <- HS, <- HN.
  destruct (lengths_are n ord KObj), (lengths_are n ord KFloat), (lengths_are n ord KInt), (lengths_are n ord KBool), (forallb _ (elements strs)), (forallb f ord);
    cbn; intuition congruence.
Qed.
(** The dataframes of this development pass if their strings are marked. *)
Lemma C83_wf_main (ord : list (key * slice)) (h : heap) (d : dframe) : wf h d -> ord ≡ₚ map_to_list (mp h (r_maps (d_raw d))) ->
  (forall c, c ∈ t_strs (abs h d) -> is_Some (t_cols (abs h d) !! (KObj, c))) ->
  (forall c s, mp h (r_maps (d_raw d)) !! (KObj, c) = Some s -> c ∉ t_strs (abs h d) -> forall x, VObj (OStr x) ∉ sl_vals h s) ->
  check_consistency ord (d_raw d) h = true.
Proof.
  intros [n W] Ho H1 H2. apply C83_check_main; [done|]. split; [|split; [|exact H2]].
  - exists n. intros k s Hk. by apply (wf_cols _ _ _ W k).
  - intros c Hc. apply H1 in Hc. cbn [abs t_cols] in Hc. rewrite lookup_fmap in Hc. destruct (_ !! (KObj, c)); [by eexists|by destruct Hc].
Qed.
Section wit.
Existing Instance ex_rt.
Definition bad_strs : heap := set_str ex_h 0 {["zz"]}.
Lemma C83_case_main : wf ex_h ex_d /\ check_consistency (map_to_list (mp ex_h (r_maps (d_raw ex_d)))) (d_raw ex_d) ex_h = true /\
  check_consistency (map_to_list (mp bad_strs (r_maps (d_raw ex_d)))) (d_raw ex_d) bad_strs = false.
Proof. split; [exact ex_wf|]. split; by vm_compute. Qed.
End wit.
