(** Reading and writing CSV: C44 - C49, C70, C71. *)
From Verif Require Export P_Csv5 P_PoolMain P_ViewMain.

(** ** C44 *)
Section frame.
Context {crt : CsvRT}.
Definition default_types (o : rspec) : Prop :=
  rs_binary_float o = false /\ rs_bool_float o = false /\ rs_int_float o = false.

Lemma C44_inference_main : forall (o : rspec) (header : list string) (recs : list (list string)) (c : string),
  default_types o ->
  match native_col o header recs c with
  | Ok (k, vs) => exists l, cells_of header recs c l /\ ladder (rs_missing o) l k vs
  | Panic => forall l, ~ cells_of header recs c l
  end.
Proof.
  intros o header recs c (H1 & H2 & H3). destruct (native_col o header recs c) as [[k vs]|] eqn:E.
  - unfold native_col in E. destruct (index_of c header) as [col|] eqn:Ei; [|done].
    apply native_ok_inv in E as F. destruct (cells_total col recs F) as [l Hl].
    exists l. split.
    + apply index_of_some in Ei as [Ei Ej]. by exists col.
    + rewrite (native_cells o recs col l Hl) in E. injection E as <- <-. by apply pure_kind_ladder.
  - intros l Hl. rewrite (cells_of_native o _ _ _ _ Hl) in E. done.
Qed.

Context {rt : GoRT}.
Lemma ladder_of o header recs c k vs : default_types o -> wide header recs ->
  c ∈ header -> Kof o header recs c = k /\ Vof o header recs c = vs <-> exists l, cells_of header recs c l /\ ladder (rs_missing o) l k vs.
Proof.
  intros (H1 & H2 & H3) Hw Hc. pose proof (cell_list_cells _ _ _ Hc Hw) as Hl. split.
  - intros [<- <-]. exists (cell_list header recs c). split; [done|]. by apply pure_kind_ladder.
  - intros (l & Hl' & Hd). rewrite (cells_of_fun _ _ _ _ _ Hl' Hl) in Hd. apply pure_kind_ladder in Hd; [|done..].
    unfold Vof, Kof. by injection Hd as -> ->.
Qed.
Lemma elem_of_csv_names o header c : c ∈ csv_names o header <-> c ∈ header /\ c ∉ rs_exclude o.
Proof. unfold csv_names. by rewrite elem_of_difference, !elem_of_list_to_set. Qed.

Lemma C44_from_csv_main : forall (o : rspec) (header : list string) (recs : list (list string))
    (rnd : nat -> nat) (keys : list string) (h : heap) (q : list string) (w : Z) (m : nat) (s : pool unit),
  default_types o -> wide header recs ->
  (forall c, c ∈ keys <-> c ∈ header /\ c ∉ rs_exclude o) -> NoDup keys -> "" ∉ keys ->
  csv_queue o rnd keys = (q, w) ->
  steps false (length keys) (csv_job o header recs) m (pool_init q w h) s ->
  p_crash s = false /\
  (closed (length keys) s ->
    exists r h1, from_csv o header recs (w_log <$> p_ws s) h = Ok (r, h1) /\
    forall ord, ord ≡ₚ map_to_list (mp h1 (r_maps r)) ->
    exists d h2, to_dataframe_ord ord r h1 = Ok (d, h2) /\ wf h2 d /\ preserved h h2 /\
      t_rows (abs h2 d) = (if decide (keys = []) then 0 else length recs) /\
      t_enc (abs h2 d) = rs_enc o /\ t_cpu (abs h2 d) = max_cpu (rs_cpu o) /\
      (forall k c vs, t_cols (abs h2 d) !! (k, c) = Some vs <->
         c ∈ keys /\ exists l, cells_of header recs c l /\ ladder (rs_missing o) l k vs) /\
      (forall c, c ∈ t_strs (abs h2 d) <-> is_Some (t_cols (abs h2 d) !! (KObj, c)))).
Proof.
  intros o header recs rnd keys h q w m s Hd Hw Hk Hnd He Eq Hs.
  assert (Hkp : keys ≡ₚ elements (csv_names o header)).
  { apply NoDup_Permutation; [done|apply NoDup_elements|]. intros c. by rewrite Hk, elem_of_elements, elem_of_csv_names. }
  assert (Hj : forall c, c ∈ keys -> csv_job o header recs c = JRet tt).
  { intros c Hc. unfold csv_job. rewrite (cells_of_native o _ _ _ _ (cell_list_cells header recs c ltac:(by apply Hk) Hw)). done. }
  assert (Hseq : seq_all ((fun k => (k, csv_job o header recs k)) <$> keys) h = Some ((fun k => (k, tt)) <$> keys, h)).
  { clear -Hj. induction keys as [|c keys IH]; [done|]. rewrite !fmap_cons. simpl. rewrite (Hj c) by (by left). simpl.
    rewrite IH; [done|]. intros c' Hc'. apply Hj. by right. }
  destruct (C42_schedules_agree_partial_main unit false (csv_job o header recs) (fun _ _ => False) (fun _ _ => False)
    rnd keys (max_cpu (rs_cpu o)) h q w m s ((fun k => (k, tt)) <$> keys) h Hnd He) as [Hc _]; [|done|done|done|done|].
  { intros k Hk'. rewrite Hj by done. constructor. }
  split; [done|]. intros Hcl.
  destruct (C41_every_key_once_partial_main unit false (csv_job o header recs) rnd keys (max_cpu (rs_cpu o)) h q w m s He Eq Hs) as (_ & _ & H3 & _).
  destruct (H3 Hcl) as (_ & Hlog & _ & _).
  destruct (from_csv_table o header recs (w_log <$> p_ws s) h Hw) as (r & h1 & E & HT).
  { by rewrite Hlog. }
  exists r, h1. split; [done|]. intros ord Ho. destruct (HT ord Ho) as (d & h2 & cols & strs & E2 & W2 & X2 & Ha & Hcols & Hstr).
  exists d, h2. split; [done|]. split; [done|]. split; [by apply ext_preserved|]. rewrite Ha. simpl.
  assert (Hkc : forall c, c ∈ keys <-> c ∈ csv_names o header) by (intros c; by rewrite Hk, elem_of_csv_names).
  split; [|split; [done|split; [done|split]]].
  - destruct (decide (csv_names o header = ∅)) as [E0|E0], (decide (keys = [])) as [E1|E1]; try done.
    + destruct keys as [|c ?]; [done|]. assert (c ∈ csv_names o header) by (apply Hkc; by left). set_solver.
    + destruct E0. subst keys. apply set_eq. intros c. rewrite <- Hkc. set_solver.
  - intros k c vs. rewrite Hcols, Hkc. split.
    + intros [Hc' HKV]. split; [done|]. apply ladder_of; [done|done| |done]. by apply elem_of_csv_names in Hc' as [? _].
    + intros [Hc' Hl]. split; [done|]. apply ladder_of; [done|done| |done]. by apply elem_of_csv_names in Hc' as [? _].
  - intros c. rewrite Hstr. split.
    + intros [H1 H2]. exists (Vof o header recs c). apply Hcols. done.
    + intros [vs H%Hcols]. tauto.
Qed.
(** An unnamed column. *)
Lemma C44_empty_name_hangs_main : forall (o : rspec) (header : list string) (recs : list (list string))
    (rnd : nat -> nat) (keys : list string) (h : heap) (q : list string) (w : Z) (m : nat) (s : pool unit),
  (forall c, c ∈ keys <-> c ∈ header /\ c ∉ rs_exclude o) ->
  "" ∈ header -> "" ∉ rs_exclude o ->
  csv_queue o rnd keys = (q, w) ->
  steps false (length keys) (csv_job o header recs) m (pool_init q w h) s -> ~ closed (length keys) s.
Proof.
  intros o header recs rnd keys h q w m s Hk H1 H2 Eq Hs. eapply C41_empty_key_blocks_main; [|exact Eq|exact Hs].
  by apply Hk.
Qed.

(** ** C45 *)
Lemma pure_kind_test ms k l : forallb (pure_test ms k) l = true <-> exists vs, reads_as ms k l vs.
Proof.
  split.
  - intros H. exists (pure_vals ms k l). by apply reads_as_iff.
  - intros [vs [H _]%reads_as_iff]. done.
Qed.
Lemma C45_kinds_main : forall (o : rspec) (header : list string) (recs : list (list string)) (c : string) (l : list string),
  cells_of header recs c l ->
  exists k vs, native_col o header recs c = Ok (k, vs) /\ reads_as (rs_missing o) k l vs /\
    (k = KBool <-> rs_binary_float o = false /\
       (Forall (fun s => s = "0" \/ s = "1") l \/ rs_bool_float o = false /\ exists vs, reads_as (rs_missing o) KBool l vs)) /\
    (k = KInt <-> k <> KBool /\ rs_int_float o = false /\ exists vs, reads_as (rs_missing o) KInt l vs) /\
    (k = KFloat <-> k <> KBool /\ k <> KInt /\ exists vs, reads_as (rs_missing o) KFloat l vs).
Proof.
  intros o header recs c l Hl. exists (pure_kind o l), (pure_vals (rs_missing o) (pure_kind o l) l).
  split; [by apply cells_of_native|].
  assert (HB : Forall (fun s => s = "0" \/ s = "1") l <-> forallb (fun s => bool_decide (s = "0" \/ s = "1")) l = true).
  { rewrite forallb_forall, Forall_forall. setoid_rewrite bool_decide_eq_true. setoid_rewrite elem_of_list_In. done. }
  rewrite HB, <- !pure_kind_test, reads_as_iff.
  change (pure_test (rs_missing o) KBool) with pure_bool. change (pure_test (rs_missing o) KInt) with (pure_int (rs_missing o)).
  change (pure_test (rs_missing o) KFloat) with (pure_float (rs_missing o)).
  assert (HO : forallb (pure_test (rs_missing o) KObj) l = true) by (by apply forallb_forall).
  pose proof (binary_bool l) as Bb. unfold pure_kind.
  destruct (rs_binary_float o), (rs_bool_float o), (forallb (fun s => bool_decide (s = "0" \/ s = "1")) l) eqn:E1,
    (forallb pure_bool l) eqn:E2, (rs_int_float o), (forallb (pure_int (rs_missing o)) l) eqn:E3, (forallb (pure_float (rs_missing o)) l) eqn:E4;
    try (specialize (Bb eq_refl); discriminate); simpl;
    (split; [split; [assumption|reflexivity]|]);
    repeat split; intros; intuition (try congruence).
Qed.
(** Integers are floats for strconv. *)
Definition ints_are_floats : Prop := forall s, is_Some (parse_int s) -> is_Some (parse_float s).
Lemma C45_int_as_float_main : forall (o : rspec) (header : list string) (recs : list (list string)) (c : string) (l : list string),
  ints_are_floats -> rs_int_float o = true -> cells_of header recs c l ->
  (exists vs, reads_as (rs_missing o) KInt l vs) ->
  exists k vs, native_col o header recs c = Ok (k, vs) /\ (k = KFloat \/ k = KBool) /\
    (rs_binary_float o = true \/ Exists (fun s => s <> "0" /\ s <> "1") l -> rs_bool_float o = true -> k = KFloat) /\
    (rs_binary_float o = true -> k = KFloat).
Proof.
  intros o header recs c l Hf Ho Hl [vi Hi].
  destruct (C45_kinds_main o header recs c l Hl) as (k & vs & E & Hr & H1 & H2 & H3).
  assert (HF : exists vs, reads_as (rs_missing o) KFloat l vs).
  { apply pure_kind_test. apply reads_as_iff in Hi as [Hi _]. rewrite forallb_forall in Hi |- *. intros s Hs. specialize (Hi s Hs).
    simpl in *. unfold pure_int, pure_float in *. apply orb_true_iff in Hi. apply orb_true_iff. destruct Hi as [?|Hi]; [by left|right].
    apply bool_decide_eq_true in Hi. apply bool_decide_eq_true. by apply Hf. }
  assert (Hk : k = KFloat \/ k = KBool).
  { destruct (decide (k = KBool)); [by right|left]. apply H3. split; [done|]. split; [|done]. intros ->. destruct H2 as [H2 _]. destruct (H2 eq_refl) as (_ & ? & _). congruence. }
  exists k, vs. split; [done|]. split; [done|]. split.
  - intros Hx Hb. destruct Hk as [?| ->]; [done|]. destruct (proj1 H1 eq_refl) as [B1 [B2|[B2 _]]]; [|congruence].
    destruct Hx as [?|Hx]; [congruence|]. apply Exists_exists in Hx as (s & Hs & Hs1 & Hs2). rewrite Forall_forall in B2.
    destruct (B2 s Hs); done.
  - intros Hb. destruct Hk as [?| ->]; [done|]. destruct (proj1 H1 eq_refl) as [B1 _]. congruence.
Qed.
(** BinaryAsFloat needs IntAsFloat, BoolAsFloat needs BinaryAsFloat. *)
Lemma C45_binary_alone_main : forall (o : rspec) (header : list string) (recs : list (list string)) (c : string) (l : list string),
  cells_of header recs c l -> Forall (fun s => s = "0" \/ s = "1") l ->
  exists k vs, native_col o header recs c = Ok (k, vs) /\
    (rs_binary_float o = false -> k = KBool) /\
    (rs_binary_float o = true -> rs_int_float o = false -> k = KInt).
Proof.
  intros o header recs c l Hl HB. destruct (C45_kinds_main o header recs c l Hl) as (k & vs & E & Hr & H1 & H2 & H3).
  exists k, vs. split; [done|]. split.
  - intros Hb. apply H1. split; [done|]. by left.
  - intros Hb Hi. apply H2. split; [intros Hk; apply H1 in Hk as [? _]; congruence|]. split; [done|].
    apply pure_kind_test, forallb_forall. intros s Hs. rewrite <- elem_of_list_In in Hs. rewrite Forall_forall in HB. simpl. unfold pure_int.
    apply orb_true_iff. right. by destruct (HB s Hs) as [-> | ->].
Qed.
Lemma C45_bool_words_main : forall (o : rspec) (header : list string) (recs : list (list string)) (c : string) (l : list string),
  cells_of header recs c l -> rs_bool_float o = true -> "true" ∈ l -> "true" ∉ rs_missing o -> parse_float "true" = None ->
  exists vs, native_col o header recs c = Ok (KObj, vs).
Proof.
  intros o header recs c l Hl Hb Ht Hm Hp. destruct (C45_kinds_main o header recs c l Hl) as (k & vs & E & Hr & H1 & H2 & H3).
  exists vs. rewrite E. f_equal. f_equal. destruct k; [done| | |]; exfalso.
  - destruct (proj1 H3 eq_refl) as (_ & _ & V). apply pure_kind_test in V. rewrite forallb_forall in V. specialize (V "true"). rewrite <- elem_of_list_In in V.
    specialize (V Ht). assert (pure_test (rs_missing o) KFloat "true" = false) by (by apply pure_float_false). congruence.
  - destruct (proj1 H2 eq_refl) as (_ & _ & V). apply pure_kind_test in V. rewrite forallb_forall in V. specialize (V "true"). rewrite <- elem_of_list_In in V.
    specialize (V Ht). assert (pure_test (rs_missing o) KInt "true" = false) by (by apply pure_int_false). congruence.
  - destruct (proj1 H1 eq_refl) as (_ & [V|[V _]]); [|congruence]. rewrite Forall_forall in V. by destruct (V _ Ht).
Qed.
End frame.

(** ** C46 *)
Section write.
Context {crt : CsvRT}.
Lemma C46_writes_rows_partial_main : forall (order : nat -> gset string -> list string) (flush : nat -> bool) (o : wspec) (h : heap) (d : dframe),
  wf h d -> perm_order order -> (forall j, flush j = true) ->
  d_viewed d = false \/ ws_order o = true ->
  match to_1csv order flush o d h with
  | Ok (file, failed, h') => failed = false /\ preserved h h' /\
      exists keys rows, csv_order (abs h d) keys /\ t_records (ws_marker o) keys (abs h d) = Some rows /\
        file = (snd <$> keys) :: rows
  | Panic => unwritable (abs h d)
  end.
Proof.
  intros order flush o h d W P Hf Ho. destruct (to_1csv_all order o h d W P) as (h' & X & _ & _ & E).
  rewrite (E flush Hf). rewrite sort_id by done.
  destruct (t_records (ws_marker o) (keys_of order (abs h d)) (abs h d)) as [rows|] eqn:Er.
  - split; [done|]. split; [by apply ext_preserved|]. exists (keys_of order (abs h d)), rows. split; [by apply keys_of_order|done].
  - eapply t_records_none; [by apply abs_ok|by apply keys_of_order|exact Er].
Qed.
Lemma C46_failing_writer_partial_main : forall (order : nat -> gset string -> list string) (flush : nat -> bool) (o : wspec) (h : heap) (d : dframe) (n : nat),
  wf h d -> perm_order order -> ~ unwritable (abs h d) ->
  d_viewed d = false \/ ws_order o = true ->
  (* the first flush that fails *)
  256 * n < num_rows d -> flush n = false -> (forall i, i < n -> flush i = true) ->
  exists keys rows file h', csv_order (abs h d) keys /\ t_records (ws_marker o) keys (abs h d) = Some rows /\
    to_1csv order flush o d h = Ok (file, true, h') /\ preserved h h' /\
    file = take (if decide (n = 0) then 0 else 1 + 256 * n) ((snd <$> keys) :: rows).
Proof.
  intros order flush o h d n W P Hu Ho Hn Hf Hl. destruct (to_1csv_fail order o h d n W P Hn) as (h' & X & E).
  rewrite sort_id in E by done.
  destruct (t_records (ws_marker o) (keys_of order (abs h d)) (abs h d)) as [rows|] eqn:Er.
  2: { destruct Hu. eapply t_records_none; [by apply abs_ok|by apply keys_of_order|exact Er]. }
  specialize (E flush rows Hf Hl eq_refl).
  do 4 eexists. split; [by apply keys_of_order|]. split; [exact Er|]. split; [exact E|]. split; [by apply ext_preserved|].
  destruct (decide (n = 0)); done.
Qed.
(** The order of the rows of a view need not be kept: one row is written again
    and again. *)
Lemma C46_unordered_view_main : forall (order : nat -> gset string -> list string) (flush : nat -> bool) (o : wspec) (h : heap) (d : dframe)
    (file : list (list string)) (failed : bool) (h' : heap),
  wf h d -> perm_order order -> (forall j, flush j = true) -> d_viewed d = true -> ws_order o = false ->
  to_1csv order flush o d h = Ok (file, failed, h') ->
  exists keys row, csv_order (abs h d) keys /\ file = (snd <$> keys) :: replicate (num_rows d) row.
Proof.
  intros order flush o h d file failed h' W P Hf Hv Ho E'. destruct (to_1csv_all order o h d W P) as (h1 & X & _ & _ & E).
  rewrite (E flush Hf) in E'.
  destruct (t_records (ws_marker o) (keys_of order (abs h d)) (abs h (sort_if_needed o d))) as [rows|] eqn:Er; [|done].
  injection E' as <- _ _. destruct (sort_repeats _ _ _ _ _ W Hv Ho rows Er) as [r ->].
  exists (keys_of order (abs h d)), r. split; [by apply keys_of_order|done].
Qed.
(** Without rows, the header is written and errors are ignored. *)
Lemma C46_no_rows_main : forall (order : nat -> gset string -> list string) (flush : nat -> bool) (o : wspec) (h : heap) (d : dframe),
  wf h d -> perm_order order -> num_rows d = 0 ->
  exists keys h', csv_order (abs h d) keys /\ preserved h h' /\
    to_1csv order flush o d h = Ok (if flush 0 then [snd <$> keys] else [], false, h').
Proof.
  intros order flush o h d W P Hn. destruct (to_1csv_empty order o h d W Hn) as (h' & X & E).
  exists (keys_of order (abs h d)), h'. split; [by apply keys_of_order|]. split; [by apply ext_preserved|]. apply E.
Qed.

(** ** C47 *)
Context {rt : GoRT}.
Lemma C47_splits_rows_partial_main : forall (order : nat -> nat -> gset string -> list string) (flush : nat -> nat -> bool) (o : wspec) (h : heap) (d : dframe) (writers : nat),
  wf h d -> (forall i, perm_order (order i)) -> (forall i j, flush i j = true) ->
  d_viewed d = false \/ ws_order o = true ->
  0 < num_rows d \/ writers <= 1 ->
  match to_csvs order flush o d writers h with
  | Ok (files, failed, h') => failed = false /\ preserved h h' /\ length files = writers /\
      (0 < writers -> exists parts rest, t_concat parts (abs h d) /\
        Forall (fun f => f = [[]]) rest /\
        (* the files after the parts contain an empty line *)
        exists fs, files = fs ++ rest /\ Forall2 (fun t f => exists keys rows, csv_order t keys /\
          t_records (ws_marker o) keys t = Some rows /\ f = (snd <$> keys) :: rows) parts fs)
  | Panic => unwritable (abs h d) /\ 0 < writers
  end.
Proof.
  intros order flush o h d writers W P Hf Ho Hn. unfold to_csvs. rewrite sort_id by done.
  pose proof (C10_split_n_view_parts_partial_main rt h d (Z.of_nat writers) W) as HS.
  unfold bind at 1. destruct (split_n_view d (Z.of_nat writers) h) as [[vs h1]|]; [|exfalso; assert (Z.of_nat writers < 0)%Z; [apply HS; lia|lia]].
  destruct HS as (_ & Hl & Hparts & Wf & Pr & _); [lia|]. rewrite Nat2Z.id in Hl.
  pose proof (write_parts_all order flush (WSpec (ws_marker o) (ws_min_rows o) true) vs eq_refl P Hf writers 0 h1 ltac:(lia) Wf) as HW.
  unfold bind at 1. destruct (write_parts order flush _ 0 writers vs h1) as [[l h2]|].
  - unfold ret. destruct HW as (X2 & L2 & F2 & R2). split; [|split; [|split]].
    + clear -F2. induction F2 as [|p l Hp F IH]; [done|]. simpl. by rewrite Hp, IH.
    + eapply preserved_trans; [exact Pr|by apply ext_preserved].
    + by rewrite fmap_length.
    + intros Hw. destruct (Hparts ltac:(lia)) as (parts & pad & -> & HC & HP). rewrite app_length in Hl.
      exists (abs h1 <$> parts), (drop (length parts) l.*1). split; [done|]. split.
      * apply Forall_lookup. intros j f Hj. rewrite lookup_drop, list_lookup_fmap in Hj.
        destruct (l !! (length parts + j)) as [p|] eqn:Ep; [|done]. injection Hj as <-.
        destruct (lookup_lt_is_Some_2 pad j) as [v Hv].
        { apply lookup_lt_Some in Ep. lia. }
        destruct (R2 (length parts + j) p v Ep) as (rows & Er & ->).
        { simpl. rewrite lookup_app_r by lia. by replace (length parts + j - length parts) with j by lia. }
        rewrite Forall_lookup in HP. destruct (HP j v Hv) as (Z0 & Z1 & Z2).
        assert (Hk : keys_of (order (0 + (length parts + j))) (abs h1 v) = []).
        { assert (Hnil : forall i k, order (0 + (length parts + j)) i (of_kind k (abs h1 v)) = []).
          { intros i k. apply Permutation_nil. symmetry. rewrite (P _ i). unfold of_kind. rewrite Z1. by rewrite dom_empty_L. }
          unfold keys_of. rewrite !Hnil, Z2. assert (order (0 + (length parts + j)) 3 ∅ = []) as ->; [|done].
          apply Permutation_nil. symmetry. rewrite (P _ 3). done. }
        rewrite Hk in Er |- *. simpl in Er. unfold t_records in Er. change (t_rows (abs h1 v)) with (num_rows v) in Er. rewrite Z0 in Er. simpl in Er.
        injection Er as <-. done.
      * exists (take (length parts) l.*1). split; [by rewrite take_drop|]. apply Forall2_same_length_lookup_2.
        { rewrite take_length, !fmap_length. lia. }
        intros j t f Ht Hj. rewrite list_lookup_fmap in Ht. destruct (parts !! j) as [v|] eqn:Ev; [|done]. injection Ht as <-.
        assert (Hjl : j < length parts) by (by eapply lookup_lt_Some).
        rewrite lookup_take, list_lookup_fmap in Hj by done. destruct (l !! j) as [p|] eqn:Ep; [|done]. injection Hj as <-.
        destruct (R2 j p v Ep) as (rows & Er & ->); [simpl; by rewrite lookup_app_l|].
        exists (keys_of (order j) (abs h1 v)), rows. split; [by apply keys_of_order|done].
  - destruct HW as (v & Hv & Hu). destruct (decide (0 < writers)) as [Hw|Hw].
    2: { assert (vs = []) as -> by (apply nil_length_inv; lia). by apply elem_of_nil in Hv. }
    split; [|done]. destruct (Hparts ltac:(lia)) as (parts & pad & -> & HC & HP). apply elem_of_app in Hv as [Hv|Hv].
    + eapply (unwritable_part (abs h1 <$> parts)); [by apply abs_ok| |exact HC|by apply elem_of_list_fmap_1|exact Hu].
      apply Forall_fmap. apply Forall_app in Wf as [Wf _]. eapply Forall_impl; [exact Wf|]. intros x Wx. by apply abs_ok.
    + rewrite Forall_forall in HP. destruct (HP v Hv) as (_ & _ & Z2). destruct Hu as (c & Hc & _). rewrite Z2 in Hc. set_solver.
Qed.
(** Fewer rows than writers: dfs[i] out of range if there are no rows. *)
Lemma C47_no_rows_main : forall (order : nat -> nat -> gset string -> list string) (flush : nat -> nat -> bool) (o : wspec) (h : heap) (d : dframe) (writers : nat),
  num_rows d = 0 -> 2 <= writers -> to_csvs order flush o d writers h = Panic.
Proof.
  intros order flush o h d writers H0 Hw. unfold to_csvs, split_n_view. rewrite sort_rows.
  rewrite decide_False, decide_False, decide_True by (try lia; by right). unfold ret at 1. unfold bind at 1.
  destruct writers as [|[|n]]; [lia|lia|]. unfold bind at 1. cbn [write_parts]. change ([view (sort_if_needed o d)] !! 0) with (Some (view (sort_if_needed o d))).
  cbv beta iota. unfold bind at 1. destruct (to_1csv _ _ _ _ h) as [[p h1]|]; [|done]. done.
Qed.
End write.

(** ** C48 *)
Lemma C48_paths_partial_main : forall (o : wspec) (rows : nat) (cpu : Z) (prefix : string),
  (1 <= cpu)%Z ->
  exists paths, csv_dir_paths o rows cpu prefix = Ok paths /\ NoDup paths /\
    1 <= length paths /\ (Z.of_nat (length paths) <= cpu)%Z /\
    length paths <= 1 + rows / Z.to_nat (if decide (ws_min_rows o <= 0)%Z then 512 else ws_min_rows o) /\
    Forall (fun p => exists s, p = prefix +:+ s +:+ ".csv") paths.
Proof.
  intros o rows cpu prefix Hc. unfold csv_dir_paths. cbv zeta. set (mr := if decide (ws_min_rows o <= 0)%Z then 512%Z else ws_min_rows o).
  assert (Hm : (0 < mr)%Z) by (unfold mr; destruct (decide _); lia).
  assert (Hd : (Z.of_nat rows / mr)%Z = Z.of_nat (rows / Z.to_nat mr)).
  { rewrite Nat2Z.inj_div, Z2Nat.id by lia. done. }
  assert (0 <= Z.of_nat rows / mr)%Z by (rewrite Hd; lia).
  set (n := if decide (cpu < 1 + Z.of_nat rows / mr)%Z then cpu else (1 + Z.of_nat rows / mr)%Z).
  assert (Hn : (1 <= n <= cpu /\ n <= 1 + Z.of_nat rows / mr)%Z) by (unfold n; clear -H Hc; generalize dependent (Z.of_nat rows / mr)%Z; intros q Hq; clear mr; destruct (decide (cpu < 1 + q)%Z); lia).
  rewrite decide_False by lia. clearbody n. eexists. split; [done|]. rewrite fmap_length, seq_length. split; [|split; [|split; [|split]]].
  - apply NoDup_fmap_2; [|apply NoDup_seq]. intros i j E. apply (inj (String.append prefix)) in E. apply append_inj_r in E.
    apply (f_equal (parse_digits 0)) in E. unfold zero_pad in E. rewrite !parse_zero_pad, !pretty_nat_digits in E. injection E as E. lia.
  - lia.
  - lia.
  - lia.
  - apply Forall_fmap, Forall_forall. intros i _. simpl. by eexists.
Qed.
Lemma C48_empty_dataframe_refuted_main : exists (o : wspec) (rows : nat) (prefix : string),
  csv_dir_paths o rows 0 prefix = Ok [].
Proof. exists (WSpec "" 0 false), 7, "out". by vm_compute. Qed.

(** ** C49 *)
Section round.
Context {crt : CsvRT} {rt : GoRT}.
Lemma C49_round_trip_main : forall (order : nat -> gset string -> list string) (flush : nat -> bool) (wo : wspec) (ro : rspec)
    (h : heap) (d : dframe) (file : list (list string)) (h1 : heap) (logs : list (list string)),
  wf h d -> perm_order order -> (forall j, flush j = true) -> d_viewed d = false \/ ws_order wo = true ->
  (* the object columns are the string columns; no two columns have the same name *)
  (forall c, c ∈ t_strs (abs h d) <-> is_Some (t_cols (abs h d) !! (KObj, c))) ->
  (forall k k' c, is_Some (t_cols (abs h d) !! (k, c)) -> is_Some (t_cols (abs h d) !! (k', c)) -> k = k') ->
  (forall k vs, t_cols (abs h d) !! k = Some vs -> numbers_ok vs) ->
  default_types ro -> rs_header ro = [] -> rs_exclude ro = [] ->
  to_1csv order flush wo d h = Ok (file, false, h1) ->
  (* no record is lost by encoding/csv *)
  transport file = file ->
  exists header recs, csv_split ro (transport file) = Some (header, recs) /\
  (forall c, c ∈ header <-> exists k, is_Some (t_cols (abs h d) !! (k, c))) /\
  (concat logs ≡ₚ header ->
   exists r h2, from_csv ro header recs logs h1 = Ok (r, h2) /\
   forall ord, ord ≡ₚ map_to_list (mp h2 (r_maps r)) ->
   exists d' h3, to_dataframe_ord ord r h2 = Ok (d', h3) /\ wf h3 d' /\ preserved h h3 /\
     t_rows (abs h3 d') = t_rows (abs h d) /\
     (forall c, (exists k, is_Some (t_cols (abs h3 d') !! (k, c))) <-> exists k, is_Some (t_cols (abs h d) !! (k, c))) /\
     (forall k c vs, t_cols (abs h d) !! (k, c) = Some vs ->
        t_cols (abs h3 d') !! (k, c) = Some vs <-> survives (ws_marker wo) (rs_missing ro) k vs) /\
     (t_cols (abs h3 d') = t_cols (abs h d) /\ t_strs (abs h3 d') = t_strs (abs h d) <->
        forall k vs, t_cols (abs h d) !! k = Some vs -> survives (ws_marker wo) (rs_missing ro) k.1 vs)).
Proof.
  intros order flush wo ro h d file h1 logs W P Hf Ho Hs Hu Hnum Hdt Hh Hx E Ht.
  destruct (to_1csv_all order wo h d W P) as (h1' & X & _ & _ & E'). rewrite (E' flush Hf) in E. rewrite sort_id in E by done.
  set (keys := keys_of order (abs h d)) in *. assert (HO : csv_order (abs h d) keys) by (by apply keys_of_order).
  destruct (t_records (ws_marker wo) keys (abs h d)) as [rows|] eqn:Er; [|done]. injection E as <- <-.
  rewrite Ht. exists (snd <$> keys), rows. split; [unfold csv_split; by rewrite Hh|].
  pose proof (abs_ok h d W) as Hok. destruct (t_records_length _ _ _ _ Er) as [Hlr Hw].
  assert (Hkey : forall k, k ∈ keys <-> is_Some (t_cols (abs h d) !! k)).
  { intros [k c]. rewrite (elem_of_order _ _ _ HO). simpl. split.
    - intros [[_ ?]|[-> ?%Hs]]; done.
    - intros Hk. destruct (decide (k = KObj)) as [->|]; [right; split; [done|by apply Hs]|by left]. }
  assert (Hhd : forall c, c ∈ snd <$> keys <-> exists k, is_Some (t_cols (abs h d) !! (k, c))).
  { intros c. rewrite elem_of_list_fmap. split.
    - intros ([k c'] & -> & Hk%Hkey). by exists k.
    - intros [k Hk%Hkey]. by exists (k, c). }
  split; [done|]. intros Hlog.
  assert (Hnd : NoDup (snd <$> keys)).
  { eapply csv_order_names_nodup; [exact HO| |done]. intros c ?. by apply Hs. }
  assert (Hwide : wide (snd <$> keys) rows).
  { eapply Forall_impl; [exact Hw|]. intros r Hr. cbv beta in Hr |- *. rewrite fmap_length. lia. }
  assert (Hnm : forall c, c ∈ csv_names ro (snd <$> keys) <-> c ∈ snd <$> keys).
  { intros c. rewrite elem_of_csv_names, Hx. split; [by intros [? _]|]. intros ?. split; [done|apply not_elem_of_nil]. }
  destruct (from_csv_table ro (snd <$> keys) rows logs h1' Hwide) as (r & h2 & E2 & HT).
  { rewrite Hlog. apply NoDup_Permutation; [done|apply NoDup_elements|]. intros c. by rewrite elem_of_elements, Hnm. }
  exists r, h2. split; [done|]. intros ord Hord. destruct (HT ord Hord) as (d' & h3 & cols & strs & E3 & W3 & X3 & Ha & Hc & Hst).
  exists d', h3. split; [done|]. split; [done|]. split; [apply ext_preserved; by eapply ext_trans|]. rewrite Ha. cbn [t_rows t_cols t_strs].
  setoid_rewrite Hnm in Hc. setoid_rewrite Hnm in Hst.
  assert (Hne : keys <> []).
  { intros Hk. rewrite Hk in Ht. simpl in Ht. unfold transport in Ht. rewrite filter_cons_False in Ht by (by intros [? _]).
    apply (f_equal length) in Ht. rewrite map_length in Ht. simpl in Ht.
    pose proof (filter_length (fun r : list string => r <> [] /\ r <> [""]) rows). lia. }
  assert (Hcol : forall k c vs, t_cols (abs h d) !! (k, c) = Some vs -> cols !! (k, c) = Some vs <-> survives (ws_marker wo) (rs_missing ro) k vs).
  { intros k c vs Hk. assert (Hkk : (k, c) ∈ keys) by (apply Hkey; by eexists).
    assert (Hch : c ∈ snd <$> keys) by (apply Hhd; by exists k; eexists).
    pose proof (written_cells _ _ _ _ _ _ _ Hok Er Hnd Hkk Hk) as HT'. destruct (Hok _ _ Hk) as [_ Hty].
    rewrite <- (survives_ladder _ (rs_missing ro) k vs _ HT' Hty (Hnum _ _ Hk)).
    rewrite Hc. destruct Hdt as (D1 & D2 & D3). rewrite <- (pure_kind_ladder ro _ k vs D1 D2 D3). unfold Vof, Kof.
    split; [intros (_ & <- & <-); done|]. intros [= -> ->]. done. }
  assert (Hnames : forall c, (exists k, is_Some (cols !! (k, c))) <-> exists k, is_Some (t_cols (abs h d) !! (k, c))).
  { intros c. rewrite <- Hhd. split.
    - intros (k & vs & Hk). apply Hc in Hk. tauto.
    - intros Hi. exists (Kof ro (snd <$> keys) rows c), (Vof ro (snd <$> keys) rows c). by apply Hc. }
  split; [|split; [done|split; [done|]]].
  - destruct (decide _) as [E0|E0]; [|done]. destruct keys as [|k keys']; [done|]. exfalso.
    assert (k.2 ∈ csv_names ro (snd <$> k :: keys')) by (apply Hnm; left). set_solver.
  - split.
    + intros [Heq _] [k c] vs Hk. apply (Hcol k c vs Hk). rewrite Heq. done.
    + intros Hall. assert (Heq : cols = t_cols (abs h d)).
      { apply map_eq. intros [k c]. destruct (t_cols (abs h d) !! (k, c)) as [vs|] eqn:Ek.
        - apply (Hcol k c vs Ek). exact (Hall _ _ Ek).
        - destruct (cols !! (k, c)) as [vs|] eqn:Ec; [|done]. exfalso.
          destruct (proj1 (Hnames c)) as (k' & vs' & Hk'); [by exists k; eexists|].
          pose proof (proj2 (Hcol k' c vs' Hk') (Hall _ _ Hk')) as Hk2. apply Hc in Ec as (_ & H1 & _). apply Hc in Hk2 as (_ & H2 & _).
          assert (k = k') as -> by congruence. congruence. }
      split; [done|]. apply set_eq. intros c. rewrite Hst, Hs, <- Heq. split.
      * intros [H1 H2]. exists (Vof ro (snd <$> keys) rows c). by apply Hc.
      * intros [vs Hv%Hc]. tauto.
Qed.
End round.

(** ** C70 *)
Section merge.
Context {rt : GoRT}.
Fixpoint last_wins {A} (l : list (gmap key A)) (k : key) : option A :=
  match l with
  | [] => None
  | m :: l => match last_wins l k with Some x => Some x | None => m !! k end
  end.
Lemma merge_maps_last h l k : forall m, merge_maps h l m !! k =
  match last_wins ((fun e => mp h (r_maps e)) <$> l) k with Some s => Some s | None => m !! k end.
Proof.
  induction l as [|e l IH]; intros m; [done|]. unfold merge_maps in *. cbn [foldl]. rewrite IH, fmap_cons. cbn [last_wins].
  destruct (last_wins _ k) as [s|]; [done|]. rewrite lookup_union. by destruct (mp h (r_maps e) !! k), (m !! k).
Qed.
Lemma merge_strs_elem h l c : forall xs, c ∈ merge_strs h l xs <-> c ∈ xs \/ exists e, e ∈ l /\ c ∈ ostr h (r_strs e).
Proof.
  induction l as [|e l IH]; intros xs; [set_solver|]. unfold merge_strs in *. cbn [foldl]. rewrite IH, elem_of_union. set_solver.
Qed.
Lemma last_wins_fmap {A B} (f : A -> B) (l : list (gmap key A)) k : last_wins ((fun m : gmap key A => f <$> m) <$> l) k = f <$> last_wins l k.
Proof.
  induction l as [|m l IH]; [done|]. rewrite fmap_cons. cbn [last_wins]. rewrite IH. destruct (last_wins l k); [done|]. simpl. apply lookup_fmap.
Qed.
Lemma C70_merge_columns_main : forall (h : heap) (l : list raw),
  Forall (fun r => raw_ok h r /\ valid_str h (r_strs r)) l ->
  exists r h', merge_raw_columns l h = Ok (r, h') /\ preserved h h' /\ raw_ok h' r /\
    (* nothing is copied *)
    h_arr h' = h_arr h /\
    (forall k, mp h' (r_maps r) !! k = last_wins ((fun e => mp h (r_maps e)) <$> l) k) /\
    (forall k, raw_cols h' r !! k = last_wins (raw_cols h <$> l) k) /\
    (forall c, c ∈ ostr h' (r_strs r) <-> exists e, e ∈ l /\ c ∈ ostr h (r_strs e)) /\
    (* what is shared must not be changed in place *)
    (forall c, c ∈ oshr h' (r_shared r) <-> exists k, is_Some (raw_cols h' r !! (k, c))) /\
    (forall e, last l = Some e -> r_enc r = r_enc e /\ r_cpu r = r_cpu e).
Proof.
  intros h l F. destruct (merge_raw_columns_mstate h l) as (r & h' & E & Ms & Hec).
  { eapply Forall_impl; [exact F|]. intros e [[H1 _] H2]. done. }
  destruct Ms. exists r, h'. split; [done|]. split; [by apply ext_preserved|].
  assert (Hl : forall k, mp h' (r_maps r) !! k = last_wins ((fun e => mp h (r_maps e)) <$> l) k).
  { intros k. rewrite ms_mp, merge_maps_last, lookup_empty. by destruct (last_wins _ k). }
  assert (Hin : forall k s, last_wins ((fun e => mp h (r_maps e)) <$> l) k = Some s -> exists e, e ∈ l /\ mp h (r_maps e) !! k = Some s).
  { clear. intros k s. induction l as [|e l IH]; [done|]. rewrite fmap_cons. cbn [last_wins]. destruct (last_wins _ k) as [s'|].
    - intros E. destruct (IH E) as (e' & ? & ?). exists e'. split; [by right|done].
    - intros E. exists e. split; [left|done]. }
  assert (Hvals : forall s, sl_vals h' s = sl_vals h s) by (intros s; unfold sl_vals, arr; by rewrite ms_arr).
  assert (Hcols : forall k, raw_cols h' r !! k = last_wins (raw_cols h <$> l) k).
  { intros k. unfold raw_cols. rewrite lookup_fmap, Hl.
    assert ((fun r0 => sl_vals h <$> mp h (r_maps r0)) <$> l = (fun m : gmap key slice => sl_vals h <$> m) <$> ((fun e => mp h (r_maps e)) <$> l)) as -> by (by rewrite <- list_fmap_compose).
    rewrite last_wins_fmap. destruct (last_wins _ k) as [s|]; [|done]. simpl. by rewrite Hvals. }
  split.
  { split; [done|]. intros k s Hk. rewrite Hl in Hk. destruct (Hin k s Hk) as (e & He & Hk'). rewrite Forall_forall in F.
    destruct (F e He) as [[_ Hok] _]. eapply ext_col_ok; [exact ms_ext|]. by apply (Hok k s). }
  split; [done|]. split; [done|]. split; [done|]. split; [|split].
  - intros c. rewrite ms_strs, merge_strs_elem. set_solver.
  - intros c. rewrite ms_shrs, <- ms_mp, elem_of_names. unfold raw_cols. setoid_rewrite lookup_fmap. split.
    + intros (k & s & Hk). exists k. by rewrite Hk.
    + intros (k & vs & Hk). exists k. destruct (mp h' (r_maps r) !! (k, c)) as [s|]; [by exists s|done].
  - intros e He. apply last_Some in He as [l' ->]. rewrite foldl_app in Hec. simpl in Hec. by injection Hec as -> ->.
Qed.
End merge.

(** ** C71 *)
Section pattern.
Context {crt : CsvRT} {rt : GoRT}.
(** The columns that FromCSV infers for one file. *)
Definition file_table (o : rspec) (header : list string) (recs : list (list string)) (tab : gmap key (list val)) : Prop :=
  forall k c vs, tab !! (k, c) = Some vs <->
    c ∈ header /\ c ∉ rs_exclude o /\ exists l, cells_of header recs c l /\ ladder (rs_missing o) l k vs.
Definition readable (o : rspec) (f : list string * list (list string) * list (list string)) : Prop :=
  wide f.1.1 f.1.2 /\ NoDup (concat f.2) /\ forall c, c ∈ concat f.2 <-> c ∈ f.1.1 /\ c ∉ rs_exclude o.

Lemma read_files_spec o files tabs : default_types o ->
  Forall2 (fun f tab => readable o f /\ file_table o f.1.1 f.1.2 tab) files tabs ->
  forall h, exists rs h', read_files o files h = Ok (rs, h') /\ ext h h' /\ Forall (raw_ok h') rs /\
    raw_cols h' <$> rs = tabs.
Proof.
  intros Hd F. induction F as [|[[header recs] logs] tab files tabs [(Hw & Hn & Hk) Ht] F IH]; intros h.
  { exists [], h. split; [done|]. split; [apply ext_refl|]. done. }
  simpl in *.
  destruct (from_csv_spec (Kof o header recs) (Vof o header recs) o header recs h logs) as (r & h1 & E & X & R & S & H & Mk & _ & _).
  { apply Forall_forall. intros ks Hks. apply Forall_forall. intros c Hc. apply known_wide; [|done].
    assert (Hin : c ∈ concat logs) by (apply elem_of_list_In, in_concat; exists ks; by rewrite <- !elem_of_list_In).
    by apply Hk in Hin as [? _]. }
  rewrite (bind_eq _ _ _ _ _ E). destruct (IH h1) as (rs & h2 & E2 & X2 & R2 & C2). rewrite (bind_eq _ _ _ _ _ E2).
  exists (r :: rs), h2. split; [done|]. split; [by eapply ext_trans|].
  destruct (proto_ext (Kof o header recs) (Vof o header recs) h1 h2 r (concat logs) X2) as (Q1 & _ & Q3 & _); [done|].
  split; [by constructor|]. rewrite fmap_cons, C2. f_equal. apply map_eq. intros [k c]. apply option_eq. intros vs.
  rewrite (Q3 k c vs), (Ht k c vs). rewrite Hk. split.
  - intros [[H1 H2] HKV]. split; [done|]. split; [done|]. by apply ladder_of.
  - intros (H1 & H2 & Hl). split; [done|]. by apply (ladder_of o header recs c k vs).
Qed.
Lemma file_table_length o header recs tab k vs : file_table o header recs tab -> tab !! k = Some vs -> length vs = length recs.
Proof.
  destruct k as [k c]. intros Ht (_ & _ & l & (col & _ & _ & Hl) & [Hr _])%Ht. apply Forall2_length in Hl, Hr. congruence.
Qed.
Lemma C71_pattern_partial_main : forall (o : rspec) (files : list (list string * list (list string) * list (list string)))
    (tabs : list (gmap key (list val))) (h : heap),
  default_types o ->
  Forall2 (fun f tab => readable o f /\ file_table o f.1.1 f.1.2 tab) files tabs ->
  exists r h', from_csv_files o files h = Ok (r, h') /\ preserved h h' /\
    (forall k vs, raw_cols h' r !! k = Some vs <->
       (exists tab, tab ∈ tabs /\ is_Some (tab !! k)) /\ vs = concat ((fun tab => default [] (tab !! k)) <$> tabs)) /\
    forall ord, ord ≡ₚ map_to_list (mp h' (r_maps r)) ->
      (* the same columns with the same types in all files *)
      (forall tab tab', tab ∈ tabs -> tab' ∈ tabs -> dom tab = dom tab') ->
      exists d h2, to_dataframe_ord ord r h' = Ok (d, h2) /\ wf h2 d /\ preserved h h2 /\
        t_cols (abs h2 d) = raw_cols h' r /\
        (t_cols (abs h2 d) <> ∅ -> t_rows (abs h2 d) = sum_list ((fun f => length f.1.2) <$> files)) /\
        (* forgotten *)
        t_strs (abs h2 d) = ∅ /\ t_enc (abs h2 d) = None.
Proof.
  intros o files tabs h Hd F. destruct (read_files_spec o files tabs Hd F h) as (rs & h1 & E & X & R & C).
  unfold from_csv_files. rewrite (bind_eq _ _ _ _ _ E).
  destruct (merge_raw_rows_spec h1 rs R) as (r & h2 & E2 & X2 & R2 & S2 & En2 & _ & _ & _ & _ & _ & J).
  exists r, h2. split; [done|]. split; [apply ext_preserved; by eapply ext_trans|].
  assert (HJ : forall k vs, raw_cols h2 r !! k = Some vs <->
       (exists tab, tab ∈ tabs /\ is_Some (tab !! k)) /\ vs = concat ((fun tab => default [] (tab !! k)) <$> tabs)).
  { intros k vs. specialize (J k). unfold joined in J. rewrite C in J. split.
    - intros Hk. rewrite Hk in J. destruct J as [(e & He & Hs) ->]. split; [|done]. exists (raw_cols h1 e). split; [|done].
      rewrite <- C. by apply elem_of_list_fmap_1.
    - intros [(tab & Htab & Hs) ->]. destruct (raw_cols h2 r !! k) as [vs'|]; [by destruct J as [_ ->]|].
      rewrite <- C in Htab. apply elem_of_list_fmap in Htab as (e & -> & He). rewrite (J e He) in Hs. by destruct Hs. }
  split; [done|]. intros ord Hord Hdom. pose proof (to_dataframe_ord_spec h2 r ord R2) as HD. rewrite S2 in HD. specialize (HD ltac:(done) Hord).
  assert (Hlen : forall k vs, raw_cols h2 r !! k = Some vs -> length vs = sum_list ((fun f => length f.1.2) <$> files)).
  { intros k vs [(tab & Htab & Hs) ->]%HJ.
    assert (Hall : Forall (fun t => is_Some (t !! k)) tabs).
    { apply Forall_forall. intros t Hti. apply elem_of_dom. rewrite (Hdom t tab Hti Htab). by apply elem_of_dom. }
    clear -F Hall. induction F as [|f t files tabs [_ Ht] F IH]; [done|]. apply Forall_cons in Hall as [[v Hv] Hall].
    rewrite !fmap_cons. cbn [concat sum_list foldr]. rewrite app_length, IH by done. rewrite Hv. simpl.
    by rewrite (file_table_length _ _ _ _ _ _ Ht Hv). }
  destruct (to_dataframe_ord ord r h2) as [[d h3]|].
  2: { destruct HD as (k1 & k2 & v1 & v2 & H1%Hlen & H2%Hlen & Hne). congruence. }
  destruct HD as (n & Hn & _ & Wd & Xd & _ & _ & Ha). exists d, h3. split; [done|]. split; [done|].
  split; [apply ext_preserved; eapply ext_trans; [|exact Xd]; by eapply ext_trans|]. rewrite Ha. simpl. split; [done|]. split; [|by rewrite En2].
  intros Hne. apply map_choose in Hne as (k & vs & Hk). rewrite <- (Hn _ _ Hk). by apply Hlen in Hk.
Qed.
End pattern.

(** ** Cases *)
(** A toy strconv: integers, one half, and NaN. *)
Definition ex_crt : CsvRT := {|
  parse_float s := if decide (s = "0.5") then Some f_half else if decide (s = "NaN") then Some S754_nan else f64_of_Z <$> parse_int s;
  fmt_float x := if decide (x = f_half) then "0.5" else if f64_isnan x then "NaN" else pretty (f64_trunc x) |}.
Definition names_order (i : nat) (s : gset string) : list string := elements s.
Definition res_get {A} (dflt : A) (x : res (A * heap)) : A * heap := match x with Ok p => p | Panic => (dflt, heap0) end.
Definition ro0 : rspec := RSpec 0 [] [] [""] false false false None.
Definition wo0 : wspec := WSpec "" 0 false.
Definition all_ok (n : nat) : bool := true.

Section wit.
Existing Instance ex_rt.
Existing Instance ex_crt.
Lemma names_order_perm : perm_order names_order.
Proof. intros i s. reflexivity. Qed.

(** C44: bool, int with a missing value, float, string. *)
Definition c44_header : list string := ["b"; "i"; "f"; "s"; "x"].
Definition c44_recs : list (list string) := [["true"; "7"; "0.5"; "u"; "1"]; ["0"; ""; "3"; ""; "2"]].
Definition c44_o : rspec := RSpec 2 [] ["x"] [""] false false false None.
Lemma C44_check_main : wide c44_header c44_recs /\ default_types c44_o /\
  native_col c44_o c44_header c44_recs "b" = Ok (KBool, [VBool true; VBool false]) /\
  native_col c44_o c44_header c44_recs "i" = Ok (KInt, [VInt 7; VInt (-1)]) /\
  native_col c44_o c44_header c44_recs "f" = Ok (KFloat, [VFloat f_half; VFloat (f64_of_Z 3)]) /\
  native_col c44_o c44_header c44_recs "s" = Ok (KObj, [VObj (OStr "u"); VObj ONil]).
Proof. split; [repeat constructor|]. split; [done|]. by vm_compute. Qed.

(** C45 *)
Lemma C45_binary_as_float_refuted_main : exists (o : rspec) (header : list string) (recs : list (list string)) (c : string) (vs : list val),
  rs_binary_float o = true /\ cells_of header recs c ["0"; "1"] /\ parse_float "0" = Some f64_zero /\
  native_col o header recs c = Ok (KInt, vs).
Proof.
  exists (RSpec 0 [] [] [] false false true None), ["c"], [["0"]; ["1"]], "c". eexists. split; [done|].
  split; [exists 0; split; [done|]; split; [lia|]; repeat constructor|]. split; by vm_compute.
Qed.
Lemma C45_bool_as_float_refuted_main : exists (o : rspec) (header : list string) (recs : list (list string)) (vs vs' : list val),
  rs_bool_float o = true /\ cells_of header recs "c" ["0"; "1"] /\ cells_of header recs "d" ["true"; "false"] /\
  native_col o header recs "c" = Ok (KBool, vs) /\ native_col o header recs "d" = Ok (KObj, vs').
Proof.
  exists (RSpec 0 [] [] [] false true false None), ["c"; "d"], [["0"; "true"]; ["1"; "false"]]. eexists _, _. split; [done|].
  split; [exists 0; split; [done|]; split; [lia|]; repeat constructor|].
  split; [exists 1; split; [done|]; split; [intros [|[]]; simpl; [congruence|lia..]|]; repeat constructor|]. split; by vm_compute.
Qed.
Lemma C45_check_main : native_col (RSpec 0 [] [] [""] true false true None) ["c"] [["0"]; [""]; ["1"]] "c" =
  Ok (KFloat, [VFloat f64_zero; VFloat S754_nan; VFloat f64_one]).
Proof. by vm_compute. Qed.

(** C46: all rows of a dataframe, and three times the same row of a view of the
    rows 2, 0, 2. *)
Definition c46_file (o : wspec) (d : dframe) (h : heap) : list (list string) :=
  match to_1csv names_order all_ok o d h with Ok (file, _, _) => file | Panic => [] end.
Lemma C46_check_main :
  c46_file wo0 ex_d ex_h = [["f"; "a"; "b"; "s"]; ["true"; "5"; "0.5"; "x"]; ["false"; "3"; "0"; ""]; ["true"; "9"; "1"; "yy"]; ["false"; "1"; "1"; "x"]] /\
  c46_file (WSpec "?" 0 true) ex_v ex_vh = [["f"; "a"; "b"; "s"]; ["true"; "9"; "1"; "yy"]; ["true"; "5"; "0.5"; "x"]; ["true"; "9"; "1"; "yy"]].
Proof. by vm_compute. Qed.
Lemma C46_rows_once_refuted_main : exists (o : wspec) (h : heap) (d : dframe) (h' : heap),
  wf h d /\ t_cols (abs h d) !! (KInt, "a") = Some [VInt 9; VInt 5; VInt 9] /\
  to_1csv names_order all_ok o d h = Ok ([["f"; "a"; "b"; "s"]; ["true"; "5"; "0.5"; "x"]; ["true"; "5"; "0.5"; "x"]; ["true"; "5"; "0.5"; "x"]], false, h').
Proof.
  exists wo0, ex_vh, ex_v. eexists. split; [exact ex_v_wf|]. split; [by vm_compute|]. vm_compute. reflexivity.
Qed.
Lemma C46_error_lost_refuted_main : exists (h : heap) (d : dframe) (h' : heap), wf h d /\
  to_1csv names_order (fun _ => false) wo0 d h = Ok ([], false, h').
Proof.
  exists ex_h, (run_df (index_view ex_d []) ex_h).1. eexists. split; [apply (wf_check_sound _ _ 4); by vm_compute|].
  vm_compute. reflexivity.
Qed.

(** C47 *)
Definition c47_files (n : nat) : list (list (list string)) :=
  match to_csvs (fun _ => names_order) (fun _ => all_ok) wo0 ex_d n ex_h with Ok (l, _, _) => l | Panic => [] end.
Lemma C47_check_main : c47_files 2 =
  [[["f"; "a"; "b"; "s"]; ["true"; "5"; "0.5"; "x"]; ["false"; "3"; "0"; ""]];
   [["f"; "a"; "b"; "s"]; ["true"; "9"; "1"; "yy"]; ["false"; "1"; "1"; "x"]]].
Proof. by vm_compute. Qed.
Lemma C47_header_refuted_main : exists (h : heap) (d : dframe) (files : list (list (list string))) (h' : heap),
  wf h d /\ num_rows d = 4 /\ to_csvs (fun _ => names_order) (fun _ => all_ok) wo0 d 5 h = Ok (files, false, h') /\
  files !! 4 = Some [[]].
Proof. exists ex_h, ex_d. eexists _, _. split; [exact ex_wf|]. split; [by vm_compute|]. split; [vm_compute; reflexivity|by vm_compute]. Qed.
Lemma C47_empty_refuted_main : exists (h : heap) (d : dframe),
  wf h d /\ num_rows d = 0 /\ to_csvs (fun _ => names_order) (fun _ => all_ok) wo0 d 2 h = Panic.
Proof.
  exists ex_h, (run_df (index_view ex_d []) ex_h).1. split; [apply (wf_check_sound _ _ 4); by vm_compute|]. split; by vm_compute.
Qed.
(** C48 *)
Lemma C48_check_main : csv_dir_paths (WSpec "" 2 false) 20 16 "r" =
  Ok ["r00.csv"; "r01.csv"; "r02.csv"; "r03.csv"; "r04.csv"; "r05.csv"; "r06.csv"; "r07.csv"; "r08.csv"; "r09.csv"; "r10.csv"].
Proof. by vm_compute. Qed.

(** C49: all columns of the example come back. *)
Definition c49_file : list (list string) := c46_file wo0 ex_d ex_h.
Lemma C49_check_main : transport c49_file = c49_file /\
  survives "" [""] KBool [VBool true; VBool false; VBool true; VBool false] /\
  survives "" [""] KInt [VInt 5; VInt 3; VInt 9; VInt 1] /\
  survives "" [""] KFloat [VFloat f_half; VFloat f64_zero; VFloat f64_one; VFloat f64_one] /\
  survives "" [""] KObj [VObj (OStr "x"); VObj ONil; VObj (OStr "yy"); VObj (OStr "x")].
Proof.
  split; [by vm_compute|]. split; [done|]. split; [|split].
  - split; [exists 5%Z; split; [set_solver|done]|]. intros z Hz Hm. exfalso.
    repeat (apply elem_of_cons in Hz as [[= ->]|Hz]; [apply elem_of_list_singleton in Hm; by vm_compute in Hm|]). by apply elem_of_nil in Hz.
  - split; [exists f_half; split; [set_solver|by vm_compute]|]. split.
    + exists f_half. split; [set_solver|]. split; [|by vm_compute]. intros Hm%elem_of_list_singleton. by vm_compute in Hm.
    + intros x Hx Hm. exfalso.
      repeat (apply elem_of_cons in Hx as [[= ->]|Hx]; [apply elem_of_list_singleton in Hm; by vm_compute in Hm|]). by apply elem_of_nil in Hx.
  - split; [exists "x"; split; [exists (VObj (OStr "x")); split; [set_solver|done]|done]|].
    split; [exists "x"; split; [exists (VObj (OStr "x")); split; [set_solver|done]|split; [set_solver|done]]|].
    split; [exists "x"; split; [exists (VObj (OStr "x")); split; [set_solver|done]|split; [set_solver|by vm_compute]]|].
    split; [set_solver|]. intros s Hs. set_solver.
Qed.
(** Columns of zeros and ones, floats without fraction and numeric strings. *)
Definition c49_trip (b : M dframe) : option (list (key * list val)) :=
  match (let* d := b in to_1csv names_order all_ok wo0 d) heap0 with
  | Ok (header :: recs, _, h) =>
      match (let* r := from_csv ro0 header recs [header] in to_dataframe r) h with
      | Ok (d, h) => Some (map_to_list (t_cols (abs h d)))
      | Panic => None
      end
  | _ => None
  end.
Definition c49_build (k : kind) (vs : list val) : M dframe :=
  let* r := new_raw in let* r := b_add k r "c" vs in
  let* r := (if decide (k = KObj) then b_mark r "c" else ret r) in to_dataframe r.
Lemma C49_ints_refuted_main : exists vs : list val, vs = [VInt 0; VInt 1] /\
  c49_trip (c49_build KInt vs) = Some [((KBool, "c"), [VBool false; VBool true])].
Proof. eexists. split; [done|]. by vm_compute. Qed.
Lemma C49_floats_refuted_main : exists vs : list val, vs = [VFloat f64_zero; VFloat (f64_of_Z 3)] /\
  c49_trip (c49_build KFloat vs) = Some [((KInt, "c"), [VInt 0; VInt 3])].
Proof. eexists. split; [done|]. by vm_compute. Qed.
Lemma C49_strings_refuted_main : exists vs : list val, vs = [VObj (OStr "0.5"); VObj (OStr "7")] /\
  c49_trip (c49_build KObj vs) = Some [((KFloat, "c"), [VFloat f_half; VFloat (f64_of_Z 7)])].
Proof. eexists. split; [done|]. by vm_compute. Qed.

(** C71: the types of a column differ from file to file. *)
Definition c71_files : list (list string * list (list string) * list (list string)) :=
  [(["a"; "b"], [["1"; "5"]; ["2"; "6"]], [["a"; "b"]]); (["a"; "b"], [["0.5"; "7"]], [["b"]; ["a"]])].
Definition c71_r : raw * heap := res_get (d_raw dummy) (from_csv_files ro0 c71_files heap0).
Lemma C71_mixed_types_refuted_main : exists (files : list (list string * list (list string) * list (list string))) (r : raw) (h : heap),
  Forall (readable ro0) files /\ from_csv_files ro0 files heap0 = Ok (r, h) /\ to_dataframe r h = Panic.
Proof.
  exists c71_files, c71_r.1, c71_r.2. split; [|split; by vm_compute].
  assert (forall h r l, wide h r -> bool_decide (NoDup (concat l)) = true -> (forall c, c ∈ concat l <-> c ∈ h) -> readable ro0 (h, r, l)) as G.
  { intros h r l H1 H2 H3. split; [done|]. split; [by apply bool_decide_eq_true in H2|]. intros c. simpl. rewrite H3. set_solver. }
  unfold c71_files. apply Forall_cons. split; [|apply Forall_singleton]; (apply G; [unfold wide; repeat constructor|done|simpl; set_solver]).
Qed.
(** The string columns are no longer string columns. *)
Definition c71_str : list (list string * list (list string) * list (list string)) :=
  [(["s"], [["x"]; ["y"]], [["s"]]); (["s"], [["z"]], [["s"]])].
Definition c71_s : dframe * heap := run_df (let* r := from_csv_files ro0 c71_str in to_dataframe r) heap0.
Lemma C71_string_columns_refuted_main : exists (files : list (list string * list (list string) * list (list string))) (d : dframe) (h : heap),
  (let* r := from_csv_files ro0 files in to_dataframe r) heap0 = Ok (d, h) /\ wf h d /\
  t_cols (abs h d) !! (KObj, "s") = Some [VObj (OStr "x"); VObj (OStr "y"); VObj (OStr "z")] /\
  t_strs (abs h d) = ∅.
Proof.
  exists c71_str, c71_s.1, c71_s.2.
  split; [by vm_compute|]. split; [apply (wf_check_sound _ _ 3); by vm_compute|]. split; [by vm_compute|].
  apply (bool_decide_unpack _); by vm_compute.
Qed.

(** C70 *)
Definition c70_m : list raw * heap :=
  match (let* r1 := new_raw in let* r1 := b_add KInt r1 "a" [VInt 1; VInt 2] in let* r1 := b_add KObj r1 "s" [VObj (OStr "u"); VObj ONil] in
         let* r1 := b_mark r1 "s" in let* r2 := new_raw in let* r2 := b_add KInt r2 "a" [VInt 7; VInt 8] in ret [r1; r2]) heap0 with
  | Ok p => p | Panic => ([], heap0) end.
Definition c70_r : raw * heap := res_get (d_raw dummy) (merge_raw_columns c70_m.1 c70_m.2).
Lemma C70_check_main : Forall (fun r => bool_decide (r_maps r < length (h_map c70_m.2)) = true) c70_m.1 /\
  raw_cols c70_r.2 c70_r.1 !! (KInt, "a") = Some [VInt 7; VInt 8] /\
  raw_cols c70_r.2 c70_r.1 !! (KObj, "s") = Some [VObj (OStr "u"); VObj ONil].
Proof. split; [vm_compute; by repeat constructor|]. split; by vm_compute. Qed.
End wit.
