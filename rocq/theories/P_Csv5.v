(** Writing and reading back. *)
From Verif Require Export P_Csv4 P_CsvW2.

Section frame.
Context {crt : CsvRT}.

Lemma no_reads ms k l : (forall vs, ~ reads_as ms k l vs) <-> exists s, s ∈ l /\ pure_test ms k s = false.
Proof.
  split.
  - intros H. destruct (forallb (pure_test ms k) l) eqn:E.
    + destruct (H (pure_vals ms k l)). by apply reads_as_iff.
    + clear H. induction l as [|s l IH]; [done|]. cbn [forallb] in E. apply andb_false_iff in E as [E|E].
      * exists s. split; [left|done].
      * destruct (IH E) as (s' & ? & ?). exists s'. split; [by right|done].
  - intros (s & Hs & Hf) vs [Hv _]%reads_as_iff. rewrite forallb_forall in Hv. specialize (Hv s).
    rewrite <- elem_of_list_In in Hv. rewrite (Hv Hs) in Hf. done.
Qed.
Lemma pure_bool_false ms s : pure_test ms KBool s = false <-> parse_bool s = None.
Proof. simpl. unfold pure_bool. rewrite bool_decide_eq_false, <- eq_None_not_Some. done. Qed.
Lemma pure_int_false ms s : pure_test ms KInt s = false <-> s ∉ ms /\ parse_int s = None.
Proof. simpl. unfold pure_int. rewrite orb_false_iff, !bool_decide_eq_false, <- eq_None_not_Some. done. Qed.
Lemma pure_float_false ms s : pure_test ms KFloat s = false <-> s ∉ ms /\ parse_float s = None.
Proof. simpl. unfold pure_float. rewrite orb_false_iff, !bool_decide_eq_false, <- eq_None_not_Some. done. Qed.

Lemma ladder_alt ms l k vs : ladder ms l k vs <-> reads_as ms k l vs /\
  (0 < rank k -> exists s, s ∈ l /\ parse_bool s = None) /\
  (1 < rank k -> exists s, s ∈ l /\ s ∉ ms /\ parse_int s = None) /\
  (2 < rank k -> exists s, s ∈ l /\ s ∉ ms /\ parse_float s = None).
Proof.
  unfold ladder. split.
  - intros [H H']. split; [done|]. split; [|split]; intros Hr.
    + destruct (proj1 (no_reads ms KBool l) (fun vs => H' KBool vs Hr)) as (s & ? & ?%pure_bool_false). eauto.
    + destruct (proj1 (no_reads ms KInt l) (fun vs => H' KInt vs Hr)) as (s & ? & ?%pure_int_false). eauto.
    + destruct (proj1 (no_reads ms KFloat l) (fun vs => H' KFloat vs Hr)) as (s & ? & ?%pure_float_false). eauto.
  - intros (H & H1 & H2 & H3). split; [done|]. intros k' vs' Hr. revert vs'. apply no_reads. destruct k'; cbn [rank] in Hr.
    + destruct k; simpl in Hr; lia.
    + destruct (H3 Hr) as (s & ? & ?). exists s. split; [done|]. by apply pure_float_false.
    + destruct (H2 Hr) as (s & ? & ?). exists s. split; [done|]. by apply pure_int_false.
    + destruct (H1 Hr) as (s & ? & ?). exists s. split; [done|]. by apply pure_bool_false.
Qed.

Definition texts (marker : string) (vs : list val) (l : list string) : Prop :=
  Forall2 (fun v s => cell_text marker v = Some s) vs l.
Lemma texts_elem marker vs l s : texts marker vs l -> s ∈ l <-> exists v, v ∈ vs /\ cell_text marker v = Some s.
Proof.
  intros H. split.
  - intros [i Hi]%elem_of_list_lookup. destruct (Forall2_lookup_r _ _ _ _ _ H Hi) as (v & Hv & E). exists v.
    split; [by eapply elem_of_list_lookup_2|done].
  - intros (v & [i Hi]%elem_of_list_lookup & E). destruct (Forall2_lookup_l _ _ _ _ _ H Hi) as (s' & Hs & E'). simpl in *.
    assert (s = s') as -> by congruence. by eapply elem_of_list_lookup_2.
Qed.
Lemma texts_reads marker ms k vs l : texts marker vs l ->
  reads_as ms k l vs <-> forall v s, v ∈ vs -> cell_text marker v = Some s ->
    match k with
    | KBool => exists b, parse_bool s = Some b /\ v = VBool b
    | KInt => s ∈ ms /\ v = VInt (-1) \/ s ∉ ms /\ exists z, parse_int s = Some z /\ v = VInt z
    | KFloat => s ∈ ms /\ v = VFloat S754_nan \/ s ∉ ms /\ exists x, parse_float s = Some x /\ v = VFloat x
    | KObj => s ∈ ms /\ v = VObj ONil \/ s ∉ ms /\ v = VObj (OStr s)
    end.
Proof.
  intros H. unfold reads_as. split.
  - intros R v s [i Hi]%elem_of_list_lookup E. destruct (Forall2_lookup_l _ _ _ _ _ H Hi) as (s' & Hs & E'). simpl in *.
    assert (s = s') as <- by congruence. exact (Forall2_lookup_lr _ _ _ _ _ _ R Hs Hi).
  - intros R. apply Forall2_same_length_lookup_2; [symmetry; by eapply Forall2_length|]. intros i s v Hs Hv.
    apply R; [by eapply elem_of_list_lookup_2|]. exact (Forall2_lookup_lr _ _ _ _ _ _ H Hv Hs).
Qed.
Lemma typed_elem k vs v : Forall (fun v => kind_of v = k) vs -> v ∈ vs -> kind_of v = k.
Proof. rewrite Forall_forall. auto. Qed.

Lemma survives_ladder marker ms k vs l : texts marker vs l -> Forall (fun v => kind_of v = k) vs -> numbers_ok vs ->
  ladder ms l k vs <-> survives marker ms k vs.
Proof.
  intros T Ht [NZ NF]. rewrite ladder_alt, (texts_reads marker ms k vs l T).
  assert (Hel : forall P : string -> Prop, (exists s, s ∈ l /\ P s) <-> exists s, (exists v, v ∈ vs /\ cell_text marker v = Some s) /\ P s).
  { intros P. split; intros (s & H & HP); exists s; (split; [by apply (texts_elem marker vs l s T)|done]). }
  rewrite !Hel. destruct k; simpl rank; unfold survives.
  - split.
    + intros (R & H1 & H2 & H3). split; [apply H1; lia|]. split; [apply H2; lia|]. split; [apply H3; lia|]. split.
      * intros Hn. destruct (R _ _ Hn eq_refl) as [[? _]|[_ ?]]; [done|congruence].
      * intros s Hs. destruct (R _ _ Hs eq_refl) as [[_ ?]|[? _]]; [congruence|done].
    + intros (H1 & H2 & H3 & H4 & H5). split; [|done]. intros v s Hv E.
      pose proof (typed_elem _ _ _ Ht Hv) as Hk. destruct v as [[|s'|n]| | |]; try done; simpl in E; injection E as <-.
      * left. split; [by apply H4|done].
      * right. split; [by apply H5|done].
  - split.
    + intros (R & H1 & H2 & _). split; [|split].
      * destruct (H1 ltac:(lia)) as (s & (v & Hv & E) & Hp). pose proof (typed_elem _ _ _ Ht Hv) as Hk.
        destruct v as [|x| |]; try done. injection E as <-. by exists x.
      * destruct (H2 ltac:(lia)) as (s & (v & Hv & E) & Hp). pose proof (typed_elem _ _ _ Ht Hv) as Hk.
        destruct v as [|x| |]; try done. injection E as <-. by exists x.
      * intros x Hx Hm. destruct (R _ _ Hx eq_refl) as [[_ ?]|[? _]]; [congruence|done].
    + intros ((x1 & I1 & H1) & (x2 & I2 & H2 & H2') & H3). split; [|split; [|split]].
      * intros v s Hv E. pose proof (typed_elem _ _ _ Ht Hv) as Hk. destruct v as [|x| |]; try done. simpl in E. injection E as <-.
        destruct (decide (fmt_float x ∈ ms)) as [Hm|Hm]; [left; split; [done|by rewrite (H3 x)]|right; split; [done|]]. exists x. split; [by apply NF|done].
      * intros _. exists (fmt_float x1). split; [by exists (VFloat x1)|done].
      * intros _. exists (fmt_float x2). split; [by exists (VFloat x2)|done].
      * lia.
  - split.
    + intros (R & H1 & _). split.
      * destruct (H1 ltac:(lia)) as (s & (v & Hv & E) & Hp). pose proof (typed_elem _ _ _ Ht Hv) as Hk.
        destruct v as [| |z|]; try done. simpl in E. injection E as <-. exists z. split; [done|].
        assert (~ (z = 0%Z \/ z = 1%Z)); [|by auto]. rewrite <- (parse_bool_pretty z) by (by apply NZ). rewrite Hp. by intros [? ?].
      * intros z Hz Hm. destruct (R _ _ Hz eq_refl) as [[_ ?]|[? _]]; [congruence|done].
    + intros ((z1 & I1 & H1 & H1') & H3). split; [|split; [|split; lia]].
      * intros v s Hv E. pose proof (typed_elem _ _ _ Ht Hv) as Hk. destruct v as [| |z|]; try done. simpl in E. injection E as <-.
        destruct (decide (pretty z ∈ ms)) as [Hm|Hm]; [left; split; [done|by rewrite (H3 z)]|right; split; [done|]].
        exists z. split; [by apply parse_pretty_Z, NZ|done].
      * intros _. exists (pretty z1). split; [by exists (VInt z1)|]. apply eq_None_not_Some. rewrite parse_bool_pretty by (by apply NZ). lia.
  - split; [done|]. intros _. split; [|lia]. intros v s Hv E. pose proof (typed_elem _ _ _ Ht Hv) as Hk.
    destruct v as [| | |b]; try done. exists b. split; [|done]. by destruct b; injection E as <-.
Qed.

(** The cells of a written table. *)
Lemma mapM_lookup {A B} (f : A -> option B) l r i : mapM f l = Some r ->
  length r = length l /\ (forall x, l !! i = Some x -> exists y, r !! i = Some y /\ f x = Some y).
Proof.
  intros H%mapM_Some_1. split; [symmetry; by eapply Forall2_length|]. intros x Hx.
  destruct (Forall2_lookup_l _ _ _ _ _ H Hx) as (y & Hy & E). by exists y.
Qed.
Lemma t_records_length marker keys t rows : t_records marker keys t = Some rows ->
  length rows = t_rows t /\ Forall (fun r : list string => length r = length keys) rows.
Proof.
  intros H. pose proof (mapM_Some_1 _ _ _ H) as F. split.
  - rewrite <- (Forall2_length _ _ _ F). apply seq_length.
  - apply Forall_lookup. intros i r Hr. destruct (Forall2_lookup_r _ _ _ _ _ F Hr) as (j & _ & E). simpl in E.
    symmetry. eapply Forall2_length, mapM_Some_1, E.
Qed.
Lemma csv_order_names_nodup t keys : csv_order t keys ->
  (forall c, c ∈ t_strs t -> is_Some (t_cols t !! (KObj, c))) ->
  (forall k k' c, is_Some (t_cols t !! (k, c)) -> is_Some (t_cols t !! (k', c)) -> k = k') ->
  NoDup (snd <$> keys).
Proof.
  intros Ho Hs Hu. apply NoDup_fmap_2_strong.
  - intros [k c] [k' c'] H1 H2 E. simpl in E. subst c'. f_equal. apply (elem_of_order _ _ _ Ho) in H1, H2. simpl in *.
    apply (Hu k k' c).
    + destruct H1 as [[_ ?]|[-> ?]]; [done|by apply Hs].
    + destruct H2 as [[_ ?]|[-> ?]]; [done|by apply Hs].
  - destruct Ho as (bl & il & fl & sl & P1 & P2 & P3 & P4 & ->).
    assert (G : forall (k : kind) l (s : gset string), l ≡ₚ elements s -> NoDup ((fun c : string => (k, c)) <$> l)).
    { intros k l s P. apply (NoDup_fmap_2 _). rewrite P. apply NoDup_elements. }
    assert (D : forall (k k' : kind) (l l' : list string) (x : key), k <> k' -> x ∈ ((fun c => (k, c)) <$> l) -> x ∉ ((fun c => (k', c)) <$> l')).
    { intros k k' l l' x Hk (c & -> & _)%elem_of_list_fmap (c' & E & _)%elem_of_list_fmap. congruence. }
    apply NoDup_app. split; [by eapply G|]. split.
    { intros x Hx. rewrite !not_elem_of_app. repeat split; eapply D; [|done| |done| |done]; done. }
    apply NoDup_app. split; [by eapply G|]. split.
    { intros x Hx. rewrite !not_elem_of_app. repeat split; eapply D; [|done| |done]; done. }
    apply NoDup_app. split; [by eapply G|]. split; [|by eapply G].
    intros x Hx. eapply D; [|done]; done.
Qed.
Lemma written_cells marker keys t rows k c vs : t_ok t -> t_records marker keys t = Some rows -> NoDup (snd <$> keys) ->
  (k, c) ∈ keys -> t_cols t !! (k, c) = Some vs -> texts marker vs (cell_list (snd <$> keys) rows c).
Proof.
  intros Hok Hr Hnd Hk Hc. pose proof (t_records_length _ _ _ _ Hr) as [Hl Hw]. destruct (Hok _ _ Hc) as [Hn _].
  apply elem_of_list_lookup in Hk as [p Hp].
  assert (Hi : index_of c (snd <$> keys) = Some p).
  { apply index_of_some. split; [by rewrite list_lookup_fmap, Hp|]. intros j Hj E.
    assert (j = p); [|lia]. eapply (NoDup_lookup _ j p c Hnd E). by rewrite list_lookup_fmap, Hp. }
  unfold cell_list. rewrite Hi. apply Forall2_same_length_lookup_2.
  - rewrite fmap_length. lia.
  - intros i v s Hv Hs. rewrite list_lookup_fmap in Hs. destruct (rows !! i) as [r|] eqn:Er; [|done]. simpl in Hs. injection Hs as Hs.
    destruct (mapM_lookup _ _ _ i Hr) as [_ M]. assert (Hi' : seq 0 (t_rows t) !! i = Some i).
    { apply lookup_seq. split; [lia|]. apply lookup_lt_Some in Hv. lia. }
    destruct (M i Hi') as (r' & Er' & Et). assert (r' = r) as -> by congruence. unfold t_record in Et.
    destruct (mapM_lookup _ _ _ p Et) as [_ M']. destruct (M' _ Hp) as (y & Ey & Ef). rewrite Ey in Hs. simpl in Hs. subst y.
    rewrite Hc, Hv in Ef. done.
Qed.
End frame.
