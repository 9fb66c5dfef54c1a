(** Type inference. *)
From Verif Require Export Spec_Csv.

Section cells.
Context (col : nat).
Notation at_col := (Forall2 (fun (r : list string) s => r !! col = Some s)).

Lemma all_rows_cells test recs l : at_col recs l -> all_rows test recs col = Ok (forallb test l).
Proof.
  induction 1 as [|r s recs l Hr H IH]; [done|]. simpl. unfold rcell. rewrite Hr. simpl. by destruct (test s).
Qed.
Lemma conv_rows_cells f recs l : at_col recs l -> conv_rows f recs col = Ok (f <$> l).
Proof. induction 1 as [|r s recs l Hr H IH]; [done|]. simpl. unfold rcell. rewrite Hr. simpl. by rewrite IH. Qed.
Lemma mark_missing_cells (ms : list string) recs l : at_col recs l -> mark_missing ms recs col = Ok ((fun s => bool_decide (s ∈ ms)) <$> l).
Proof. induction 1 as [|r s recs l Hr H IH]; [done|]. simpl. unfold rcell. rewrite Hr. simpl. by rewrite IH. Qed.
Lemma no_markers recs l : at_col recs l -> replicate (length recs) false = (fun s => bool_decide (s ∈ @nil string)) <$> l.
Proof. induction 1 as [|r s recs l Hr H IH]; [done|]. simpl. f_equal. exact IH. Qed.
Lemma all_rows_but_cells test (ms : list string) recs l : at_col recs l ->
  all_rows_but test recs ((fun s => bool_decide (s ∈ ms)) <$> l) col = Ok (forallb (fun s => bool_decide (s ∈ ms) || test s) l).
Proof.
  induction 1 as [|r s recs l Hr H IH]; [done|]. rewrite fmap_cons. cbn [all_rows_but forallb].
  destruct (bool_decide (s ∈ ms)); [done|]. unfold rcell. rewrite Hr. simpl. by destruct (test s).
Qed.
Lemma conv_rows_but_cells f dflt (ms : list string) recs l : at_col recs l ->
  conv_rows_but f dflt recs ((fun s => bool_decide (s ∈ ms)) <$> l) col = Ok ((fun s => if bool_decide (s ∈ ms) then dflt else f s) <$> l).
Proof.
  induction 1 as [|r s recs l Hr H IH]; [done|]. rewrite !fmap_cons. cbn [conv_rows_but].
  rewrite IH. destruct (bool_decide (s ∈ ms)); [done|]. unfold rcell. by rewrite Hr.
Qed.
End cells.

Section csv.
Context {crt : CsvRT}.

Definition pure_bool (s : string) : bool := bool_decide (is_Some (parse_bool s)).
Definition pure_int (ms : list string) (s : string) : bool := bool_decide (s ∈ ms) || bool_decide (is_Some (parse_int s)).
Definition pure_float (ms : list string) (s : string) : bool := bool_decide (s ∈ ms) || bool_decide (is_Some (parse_float s)).
Definition pure_kind (o : rspec) (l : list string) : kind :=
  if negb (rs_binary_float o) && (forallb (fun s => bool_decide (s = "0" \/ s = "1")) l || negb (rs_bool_float o) && forallb pure_bool l) then KBool
  else if negb (rs_int_float o) && forallb (pure_int (rs_missing o)) l then KInt
  else if forallb (pure_float (rs_missing o)) l then KFloat
  else KObj.
Definition pure_vals (ms : list string) (k : kind) (l : list string) : list val :=
  match k with
  | KBool => (fun s => VBool (default false (parse_bool s))) <$> l
  | KInt => (fun s => if bool_decide (s ∈ ms) then VInt (-1) else VInt (default 0%Z (parse_int s))) <$> l
  | KFloat => (fun s => if bool_decide (s ∈ ms) then VFloat S754_nan else VFloat (default f64_zero (parse_float s))) <$> l
  | KObj => (fun s => if bool_decide (s ∈ ms) then VObj ONil else VObj (OStr s)) <$> l
  end.

Lemma native_cells o recs col l : Forall2 (fun r s => r !! col = Some s) recs l ->
  native o recs col = Ok (pure_kind o l, pure_vals (rs_missing o) (pure_kind o l) l).
Proof.
  intros H.
  assert (E1 : is_binary recs col = Ok (forallb (fun s => bool_decide (s = "0" \/ s = "1")) l)) by (by apply all_rows_cells).
  assert (E2 : is_bool recs col = Ok (forallb pure_bool l)) by (by apply (all_rows_cells col pure_bool)).
  assert (E3 : to_bool recs col = Ok (pure_vals (rs_missing o) KBool l)) by (by apply conv_rows_cells).
  set (mm := (fun s => bool_decide (s ∈ rs_missing o)) <$> l).
  assert (Em : (if decide (rs_missing o = []) then Ok (replicate (length recs) false) else mark_missing (rs_missing o) recs col) = Ok mm).
  { unfold mm. destruct (decide (rs_missing o = [])) as [->|Hne]; [by rewrite (no_markers col _ _ H)|by apply mark_missing_cells]. }
  assert (E4 : is_int recs col mm = Ok (forallb (pure_int (rs_missing o)) l)) by (by apply (all_rows_but_cells col (fun s => bool_decide (is_Some (parse_int s))) (rs_missing o))).
  assert (E5 : to_int recs col mm = Ok (pure_vals (rs_missing o) KInt l)) by (by apply (conv_rows_but_cells col _ _ (rs_missing o))).
  assert (E6 : is_float recs col mm = Ok (forallb (pure_float (rs_missing o)) l)) by (by apply (all_rows_but_cells col (fun s => bool_decide (is_Some (parse_float s))) (rs_missing o))).
  assert (E7 : csv_to_float recs col mm = Ok (pure_vals (rs_missing o) KFloat l)) by (by apply (conv_rows_but_cells col _ _ (rs_missing o))).
  assert (E8 : conv_rows_but (fun s => VObj (OStr s)) (VObj ONil) recs mm col = Ok (pure_vals (rs_missing o) KObj l)) by (by apply (conv_rows_but_cells col _ _ (rs_missing o))).
  unfold native. rewrite Em. cbn [res_bind]. rewrite E1, E2, E3, E4, E5, E6, E7, E8. unfold pure_kind.
  destruct (rs_binary_float o), (rs_bool_float o), (forallb (fun s => bool_decide (s = "0" \/ s = "1")) l),
    (forallb pure_bool l), (rs_int_float o), (forallb (pure_int (rs_missing o)) l), (forallb (pure_float (rs_missing o)) l); reflexivity.
Qed.

(** ** Against the specification *)
Lemma reads_as_fmap ms k l vs : reads_as ms k l vs -> vs = pure_vals ms k l.
Proof.
  intros H. unfold reads_as in H. induction H as [|s v l vs Hv H IH]; [by destruct k|].
  destruct k; cbn [pure_vals] in *; rewrite fmap_cons; f_equal; try exact IH; clear IH.
  - destruct Hv as [[Hm ->]|[Hm ->]]; [by rewrite bool_decide_eq_true_2|by rewrite bool_decide_eq_false_2].
  - destruct Hv as [[Hm ->]|[Hm (x & Ex & ->)]]; [by rewrite bool_decide_eq_true_2|rewrite bool_decide_eq_false_2 by done; by rewrite Ex].
  - destruct Hv as [[Hm ->]|[Hm (x & Ex & ->)]]; [by rewrite bool_decide_eq_true_2|rewrite bool_decide_eq_false_2 by done; by rewrite Ex].
  - destruct Hv as (b & Eb & ->). by rewrite Eb.
Qed.
Definition pure_test (ms : list string) (k : kind) (s : string) : bool :=
  match k with KBool => pure_bool s | KInt => pure_int ms s | KFloat => pure_float ms s | KObj => true end.
Lemma reads_as_iff ms k l vs : reads_as ms k l vs <-> forallb (pure_test ms k) l = true /\ vs = pure_vals ms k l.
Proof.
  split.
  - intros H. split; [|by apply reads_as_fmap]. unfold reads_as in H. induction H as [|s v l vs Hv H IH]; [done|].
    simpl. rewrite IH, andb_true_r. destruct k; simpl; try done.
    + unfold pure_float. destruct Hv as [[Hm ->]|[Hm (x & Ex & ->)]]; [by rewrite bool_decide_eq_true_2|].
      rewrite (bool_decide_eq_true_2 (is_Some (parse_float s))) by (by eexists). apply orb_true_r.
    + unfold pure_int. destruct Hv as [[Hm ->]|[Hm (x & Ex & ->)]]; [by rewrite bool_decide_eq_true_2|].
      rewrite (bool_decide_eq_true_2 (is_Some (parse_int s))) by (by eexists). apply orb_true_r.
    + unfold pure_bool. destruct Hv as (b & Eb & ->). apply bool_decide_eq_true_2. by eexists.
  - intros [H ->]. induction l as [|s l IH]; [destruct k; constructor|].
    simpl in H. apply andb_true_iff in H as [Hs H]. specialize (IH H). unfold reads_as in *.
    destruct k; cbn [pure_vals] in *; rewrite fmap_cons; constructor; try exact IH; simpl in Hs.
    + case_bool_decide; [by left|by right].
    + unfold pure_float in Hs. destruct (bool_decide_reflect (s ∈ ms)) as [Hm|Hm]; [by left|]. simpl in Hs.
      apply bool_decide_eq_true in Hs as [x Hx]. right. split; [done|]. exists x. by rewrite Hx.
    + unfold pure_int in Hs. destruct (bool_decide_reflect (s ∈ ms)) as [Hm|Hm]; [by left|]. simpl in Hs.
      apply bool_decide_eq_true in Hs as [x Hx]. right. split; [done|]. exists x. by rewrite Hx.
    + apply bool_decide_eq_true in Hs as [x Hx]. exists x. by rewrite Hx.
Qed.
Lemma binary_bool l : forallb (fun s => bool_decide (s = "0" \/ s = "1")) l = true -> forallb pure_bool l = true.
Proof.
  intros H. apply forallb_forall. intros s Hs. rewrite forallb_forall in H. specialize (H s Hs).
  apply bool_decide_eq_true in H as [-> | ->]; done.
Qed.
(** With the default options. *)
Lemma pure_kind_ladder o l k vs : rs_binary_float o = false -> rs_bool_float o = false -> rs_int_float o = false ->
  (k, vs) = (pure_kind o l, pure_vals (rs_missing o) (pure_kind o l) l) <-> ladder (rs_missing o) l k vs.
Proof.
  intros H1 H2 H3.
  assert (E : pure_kind o l = if forallb pure_bool l then KBool else if forallb (pure_int (rs_missing o)) l then KInt
    else if forallb (pure_float (rs_missing o)) l then KFloat else KObj).
  { unfold pure_kind. rewrite H1, H2, H3. cbn [negb andb].
    destruct (forallb (fun s => bool_decide (s = "0" \/ s = "1")) l) eqn:Eb; [|done].
    cbn [orb]. by rewrite (binary_bool _ Eb). }
  split.
  - intros [= -> ->]. split.
    + apply reads_as_iff. split; [|done]. rewrite E. destruct (forallb pure_bool l) eqn:E1; [done|].
      destruct (forallb (pure_int _) l) eqn:E2; [done|]. destruct (forallb (pure_float _) l) eqn:E3; [done|]. simpl.
      by apply forallb_forall.
    + intros k' vs' Hr [Hk' _]%reads_as_iff. rewrite E in Hr. revert Hr.
      destruct (forallb pure_bool l) eqn:E1; [simpl; lia|].
      destruct (forallb (pure_int _) l) eqn:E2; [destruct k'; cbn [rank]; try lia; change (pure_test (rs_missing o) KBool) with pure_bool in Hk'; change (pure_test (rs_missing o) KInt) with (pure_int (rs_missing o)) in Hk'; change (pure_test (rs_missing o) KFloat) with (pure_float (rs_missing o)) in Hk'; congruence|].
      destruct (forallb (pure_float _) l) eqn:E3; destruct k'; cbn [rank]; try lia; change (pure_test (rs_missing o) KBool) with pure_bool in Hk'; change (pure_test (rs_missing o) KInt) with (pure_int (rs_missing o)) in Hk'; change (pure_test (rs_missing o) KFloat) with (pure_float (rs_missing o)) in Hk'; congruence.
  - intros [[Hk ->]%reads_as_iff Hno].
    assert (Hn : forall k', rank k' < rank k -> forallb (pure_test (rs_missing o) k') l = false).
    { intros k' Hr. destruct (forallb (pure_test _ k') l) eqn:Et; [|done]. exfalso. eapply (Hno k'); [done|]. by apply reads_as_iff. }
    assert (pure_kind o l = k) as ->; [|done]. rewrite E.
    pose proof (Hn KBool : rank KBool < rank k -> forallb pure_bool l = false) as B1.
    pose proof (Hn KInt : rank KInt < rank k -> forallb (pure_int (rs_missing o)) l = false) as B2.
    pose proof (Hn KFloat : rank KFloat < rank k -> forallb (pure_float (rs_missing o)) l = false) as B3.
    destruct k; cbn [rank] in B1, B2, B3.
    + by rewrite B1, B2, B3 by lia.
    + rewrite B1, B2 by lia. by change (forallb (pure_float (rs_missing o)) l = true) in Hk; rewrite Hk.
    + rewrite B1 by lia. by change (forallb (pure_int (rs_missing o)) l = true) in Hk; rewrite Hk.
    + by change (forallb pure_bool l = true) in Hk; rewrite Hk.
Qed.

Lemma index_of_some c l i : index_of c l = Some i <-> l !! i = Some c /\ forall j, j < i -> l !! j <> Some c.
Proof.
  revert i. induction l as [|x l IH]; intros i; [simpl; split; [done|intros [? _]; done]|]. simpl.
  destruct (decide (x = c)) as [->|Hne].
  - split.
    + intros [= <-]. split; [done|]. intros j Hj. lia.
    + intros [Hi Hj]. destruct i as [|i]; [done|]. exfalso. apply (Hj 0); [lia|done].
  - split.
    + intros (i' & Hi' & ->)%fmap_Some. apply IH in Hi' as [H1 H2]. split; [done|]. intros [|j] Hj; simpl; [congruence|]. apply H2. lia.
    + intros [Hi Hj]. destruct i as [|i]; [simpl in Hi; congruence|]. simpl in Hi. apply fmap_Some. exists i. split; [|done].
      apply IH. split; [done|]. intros j Hj'. apply (Hj (S j)). lia.
Qed.
Lemma index_of_is_some c l : c ∈ l -> is_Some (index_of c l).
Proof.
  induction l as [|x l IH]; [by intros ?%elem_of_nil|]. intros [->|Hc]%elem_of_cons; simpl.
  - by rewrite decide_True.
  - destruct (decide (x = c)); [by eexists|]. destruct (IH Hc) as [i ->]. by eexists.
Qed.
Lemma cells_of_native o header recs c l : cells_of header recs c l ->
  native_col o header recs c = Ok (pure_kind o l, pure_vals (rs_missing o) (pure_kind o l) l).
Proof.
  intros (col & H1 & H2 & H3). unfold native_col.
  assert (index_of c header = Some col) as -> by (by apply index_of_some). by apply native_cells.
Qed.
(** Every record has a cell for every name of the header. *)
Lemma cells_of_total header recs c : c ∈ header -> Forall (fun r : list string => length header <= length r) recs ->
  exists l, cells_of header recs c l /\ length l = length recs.
Proof.
  intros Hc F. destruct (index_of_is_some c header Hc) as [col Hi]. apply index_of_some in Hi as [H1 H2].
  assert (exists l, Forall2 (fun (r : list string) s => r !! col = Some s) recs l) as [l Hl].
  { induction F as [|r recs Hr F [l IH]]; [by exists []|]. destruct (lookup_lt_is_Some_2 r col) as [s Hs].
    - apply lookup_lt_Some in H1. lia.
    - exists (s :: l). by constructor. }
  exists l. split; [by exists col|]. symmetry. by eapply Forall2_length.
Qed.
Lemma cells_of_fun header recs c l l' : cells_of header recs c l -> cells_of header recs c l' -> l = l'.
Proof.
  intros (col & H1 & H2 & H3) (col' & H1' & H2' & H3'). assert (col' = col) as ->.
  { destruct (decide (col' < col)) as [Hlt|]; [by destruct (H2 col' Hlt)|]. destruct (decide (col < col')) as [Hlt|]; [by destruct (H2' col Hlt)|]. lia. }
  clear H1 H2 H1' H2'. revert l' H3'. induction H3 as [|r s recs l Hr H IH]; intros l' H3'; inversion H3' as [|r' s' ? l2 Hs' H']; subst; [done|].
  f_equal; [congruence|]. by apply IH.
Qed.
End csv.
