(** C85, C86 and C49 on the text of CSV files. *)
From Verif Require Import M_CsvText Spec_CsvText P_CsvText.
From Verif Require Import P_Exec.
From Verif Require Import P_CsvMain.

(** ** C85 *)
Lemma same_width_spec recs : (one_width recs -> same_width recs = Some recs) /\ (~ one_width recs -> same_width recs = None).
Proof.
  destruct recs as [|r recs]; [split; [done|intros H; destruct H; intros ? ? Hr; by apply elem_of_nil in Hr]|].
  unfold same_width. destruct (forallb (fun r' => bool_decide (length r' = length r)) (r :: recs)) eqn:E.
  - split; [done|]. intros H. destruct H. rewrite forallb_forall in E. intros r1 r2 H1 H2.
    apply elem_of_list_In in H1, H2. apply E in H1, H2. apply bool_decide_eq_true in H1, H2. congruence.
  - split; [|done]. intros H. exfalso. apply not_true_iff_false in E. apply E. apply forallb_forall. intros r' Hr.
    apply bool_decide_eq_true. apply H; [by apply elem_of_list_In|left].
Qed.
Definition lost (d : dialect) (r : list string) : Prop :=
  blank_record r \/ comment_like (di_comma d) (di_comment d) r.
Definition come_back (w : wdialect) (d : dialect) (recs : list (list string)) : list (list string) :=
  fmap (M:=list) (field_back (wd_crlf w)) <$> filter (fun r => ~ lost d r) recs.
Lemma usable_check d : usable d -> valid_delim (di_comma d) &&
     match di_comment d with Some k => valid_delim k && negb (bool_decide (k = di_comma d)) | None => true end = true.
Proof.
  intros [Hv Hk]. rewrite Hv. destruct (di_comment d) as [k|]; [|done]. destruct (Hk k) as [-> ?]; [done|].
  by rewrite bool_decide_eq_false_2.
Qed.
Lemma C85_read_back_partial_main : forall (w : wdialect) (d : dialect) (recs : list (list string)) (text : string),
  wd_comma w = di_comma d -> usable d -> no_blank_comma d ->
  (* no record that looks like a comment goes over several lines *)
  (forall r, r ∈ recs -> comment_like (di_comma d) (di_comment d) r -> one_line r) ->
  csv_text w recs = Some text ->
  (one_width (come_back w d recs) -> csv_records d text = Some (come_back w d recs)) /\
  (~ one_width (come_back w d recs) -> csv_records d text = None).
Proof.
  intros w d recs text Hw Hu Hb Hc Ht. unfold csv_text in Ht. destruct (valid_delim (wd_comma w)) eqn:Hv; [|done].
  injection Ht as <-. unfold csv_records. rewrite usable_check by done. rewrite norm_records by done.
  assert (E : run_reader d RStart (nrecords w recs) = Some (come_back w d recs)).
  { rewrite (run_records d w Hw Hu Hb) by (by apply Forall_forall). unfold come_back. done. }
  rewrite E. cbn [mbind option_bind]. apply same_width_spec.
Qed.
(** When everything comes back. *)
Lemma C85_identity_main : forall (w : wdialect) (d : dialect) (recs : list (list string)) (text : string),
  wd_comma w = di_comma d -> usable d -> no_blank_comma d ->
  (forall r, r ∈ recs -> comment_like (di_comma d) (di_comment d) r -> one_line r) ->
  csv_text w recs = Some text ->
  csv_records d text = Some recs <->
    one_width recs /\ forall r, r ∈ recs -> r <> [] /\ r <> [""] /\ ~ comment_like (di_comma d) (di_comment d) r /\
      forall f, f ∈ r -> field_back (wd_crlf w) f = f.
Proof.
  intros w d recs text Hw Hu Hb Hc Ht. destruct (C85_read_back_partial_main w d recs text Hw Hu Hb Hc Ht) as [H1 H2].
  assert (Hid : (forall r, r ∈ recs -> ~ lost d r /\ forall f, f ∈ r -> field_back (wd_crlf w) f = f) -> come_back w d recs = recs).
  { intros H. unfold come_back. clear -H. induction recs as [|r recs IH]; [done|].
    destruct (H r) as [Hl Hf]; [left|]. rewrite filter_cons_True by done. rewrite fmap_cons, IH by (intros; apply H; by right).
    f_equal. clear -Hf. induction r as [|f r IHr]; [done|]. rewrite fmap_cons, IHr by (intros; apply Hf; by right). f_equal. apply Hf. left. }
  split.
  - intros E. assert (Hback : come_back w d recs = recs /\ one_width recs).
    { destruct (csv_records d text) as [l|] eqn:El; [|done]. injection E as ->.
      assert (Hd : ~ ~ one_width (come_back w d recs)) by (intros Hn; specialize (H2 Hn); done).
      assert (Hd' : one_width (come_back w d recs)).
      { intros r r' Hr Hr'. destruct (decide (length r = length r')); [done|]. destruct Hd. intros Ho. destruct n. by apply Ho. }
      specialize (H1 Hd'). injection H1 as H1. split; [done|]. by rewrite H1 at 1. }
    destruct Hback as [Hback How]. split; [done|].
    assert (Hall : forall r, r ∈ recs -> ~ lost d r /\ forall f, f ∈ r -> field_back (wd_crlf w) f = f).
    { clear -Hback. unfold come_back in Hback. revert Hback. induction recs as [|r recs IH]; intros Hback r' Hr; [by apply elem_of_nil in Hr|].
      destruct (decide (lost d r)) as [Hl|Hl].
      - exfalso. rewrite filter_cons_False in Hback by (by intros ?). apply (f_equal length) in Hback. rewrite fmap_length in Hback.
        pose proof (filter_length (fun r => ~ lost d r) recs). cbn [length] in Hback. lia.
      - rewrite filter_cons_True in Hback by done. rewrite fmap_cons in Hback. injection Hback as Hh Htl.
        apply elem_of_cons in Hr as [->|Hr]; [|by apply IH]. split; [done|]. clear -Hh.
        induction r as [|f r IHr]; intros g Hg; [by apply elem_of_nil in Hg|]. rewrite fmap_cons in Hh. injection Hh as Hh1 Hh2.
        apply elem_of_cons in Hg as [->|Hg]; [done|by apply IHr]. }
    intros r Hr. destruct (Hall r Hr) as [Hl Hf]. unfold lost, blank_record in Hl. naive_solver.
  - intros [How Hall]. assert (Hb' : come_back w d recs = recs).
    { apply Hid. intros r Hr. destruct (Hall r Hr) as (? & ? & ? & ?). split; [|done]. intros [[?|?]|?]; done. }
    rewrite H1; [by rewrite Hb'|]. by rewrite Hb'.
Qed.
(** The fields that stay as they are. *)
Lemma field_back_id_main : forall f, (field_back true f = f <-> has cCR f = false) /\
  (has cCR f = false -> field_back false f = f) /\ (has cLF f = false -> field_back false f = f).
Proof.
  intros f. cbn [field_back]. assert (Hlen : forall f, String.length (without_cr f) <= String.length f).
  { clear. induction f as [|c f IH]; [done|]. cbn [without_cr]. destruct (decide _); cbn [String.length]; lia. }
  assert (Hm : forall f, (forall c r, f = String c r -> c <> cCR \/ forall c' r', r = String c' r' -> c' <> cLF) -> True) by done. clear Hm.
  split; [split|split].
  - induction f as [|c f IH]; [done|]. cbn [without_cr has]. destruct (decide (c = cCR)) as [->|Hc].
    + intros E. apply (f_equal String.length) in E. cbn [String.length] in E. pose proof (Hlen f). lia.
    + intros [= E]. rewrite bool_decide_eq_false_2 by done. by apply IH.
  - induction f as [|c f IH]; [done|]. cbn [without_cr has]. intros [Hc Hf]%orb_false_iff. case_bool_decide; [done|].
    rewrite decide_False by done. by rewrite IH.
  - induction f as [|c f IH]; [done|]. cbn [has]. intros [Hc Hf]%orb_false_iff. case_bool_decide; [done|].
    cbn [merge_crlf]. destruct f as [|y f]; [done|]. rewrite decide_False by naive_solver. by rewrite IH.
  - induction f as [|c f IH]; [done|]. cbn [has]. intros [Hc Hf]%orb_false_iff.
    cbn [merge_crlf]. destruct f as [|y f]; [done|]. rewrite decide_False.
    + by rewrite IH.
    + intros [_ ->]. cbn [has] in Hf. apply orb_false_iff in Hf as [Hf _]. by apply bool_decide_eq_false in Hf.
Qed.

(** ** C86 *)
Lemma run_nonempty d st s l : run_reader d st s = Some l -> Forall (fun r => r <> []) l.
Proof.
  revert st l. induction s as [|c s IH]; intros st l.
  - cbn [run_reader]. destruct st; cbn [at_end]; try (intros [= <-]); try (repeat constructor; by destruct fs).
    destruct (di_lazy d); [|done]. intros [= <-]. repeat constructor. by destruct fs.
  - rewrite run_cons.
    assert (Hne : forall r, react d st (String c s) c = Emit r -> r <> []).
    { assert (Ha : forall fs s' r, at_field d fs s' c = Emit r -> r <> []).
      { intros fs s' r. unfold at_field. repeat case_match; try done. intros [= <-]. by destruct fs. }
      intros r. destruct st as [| |fs [|k]|fs b|fs b|fs b]; cbn [react]; repeat case_match; try done; try apply Ha; intros [= <-]; by destruct fs. }
    destruct (react d st (String c s) c) as [st'|r|]; [apply IH| |done].
    destruct (run_reader d RStart s) as [l'|] eqn:E; [|done]. cbn [mbind option_bind]. intros [= <-].
    constructor; [by apply Hne|by eapply IH].
Qed.
Lemma csv_records_width d text recs : csv_records d text = Some recs -> one_width recs /\ Forall (fun r => r <> []) recs.
Proof.
  unfold csv_records. destruct (_ && _); [|done]. destruct (run_reader d RStart (norm_lines text)) as [l|] eqn:E; [|done].
  cbn [mbind option_bind]. intros H. destruct (same_width_spec l) as [H1 H2].
  assert (Ho : one_width l).
  { intros r r' Hr Hr'. destruct (decide (length r = length r')); [done|]. rewrite H2 in H; [done|]. intros Ho. destruct n. by apply Ho. }
  rewrite H1 in H by done. injection H as <-. split; [done|]. by eapply run_nonempty.
Qed.
Lemma csv_open_wide d o text header recs : rs_header o = [] -> csv_open d o text = Some (header, recs) ->
  header <> [] /\ forall r, r ∈ recs -> length r = length header.
Proof.
  intros Hh. unfold csv_open. destruct (csv_records d text) as [l|] eqn:E; [|done]. cbn [mbind option_bind].
  apply csv_records_width in E as [Ho Hn]. unfold csv_split. rewrite Hh. destruct l as [|h l]; [done|]. intros [= <- <-].
  split; [by inversion Hn|]. intros r Hr. apply Ho; [by right|left].
Qed.
Section frame.
Context {crt : CsvRT} {rt : GoRT}.
Lemma cells_of_list header recs c l : cells_of header recs c l -> cells_of header recs c (cell_list header recs c).
Proof.
  intros Hl. assert (cell_list header recs c = l) as ->; [|done]. destruct Hl as (col & H1 & H2 & H3).
  unfold cell_list. assert (index_of c header = Some col) as -> by (by apply index_of_some).
  clear -H3. induction H3 as [|r s recs l Hr H IH]; [done|]. rewrite fmap_cons, IH, Hr. done.
Qed.
Lemma known_cells o header recs c : (exists l, cells_of header recs c l) ->
  known (Kof o header recs) (Vof o header recs) o header recs c.
Proof. intros [l Hl]. split; [by apply cells_of_native; eapply cells_of_list|]. apply pure_vals_typed. Qed.
Lemma from_csv_cells o header recs logs h : (forall c, c ∈ csv_names o header -> exists l, cells_of header recs c l) ->
  concat logs ≡ₚ elements (csv_names o header) ->
  exists r h1, from_csv o header recs logs h = Ok (r, h1) /\
    forall ord, ord ≡ₚ map_to_list (mp h1 (r_maps r)) ->
    exists d h2 cols strs, to_dataframe_ord ord r h1 = Ok (d, h2) /\ wf h2 d /\ ext h h2 /\
      abs h2 d = Table (if decide (csv_names o header = ∅) then 0 else length recs) cols strs (rs_enc o) (max_cpu (rs_cpu o)) /\
      (forall k c vs, cols !! (k, c) = Some vs <-> c ∈ csv_names o header /\ Kof o header recs c = k /\ Vof o header recs c = vs) /\
      (forall c, c ∈ strs <-> c ∈ csv_names o header /\ Kof o header recs c = KObj).
Proof.
  intros F Hp. assert (Hin : forall c, c ∈ concat logs <-> c ∈ csv_names o header).
  { intros c. by rewrite Hp, elem_of_elements. }
  assert (Hhd : forall c, c ∈ csv_names o header -> c ∈ header).
  { intros c. unfold csv_names. rewrite elem_of_difference, elem_of_list_to_set. tauto. }
  destruct (from_csv_spec (Kof o header recs) (Vof o header recs) o header recs h logs) as (r & h1 & E & X & R & S & H & Mk & En & Cp).
  { apply Forall_forall. intros ks Hks. apply Forall_forall. intros c Hc. apply known_cells, F, Hin.
    apply elem_of_list_In, in_concat. exists ks. by rewrite <- !elem_of_list_In. }
  exists r, h1. split; [done|]. intros ord Ho. pose proof (to_dataframe_ord_spec h1 r ord R S Ho) as HD.
  assert (Hl : forall k vs, raw_cols h1 r !! k = Some vs -> length vs = length recs).
  { intros [k c] vs Hk. apply H in Hk as (Hc & _ & <-). unfold Vof. rewrite pure_vals_length. apply cell_list_length, Hhd, Hin, Hc. }
  destruct (to_dataframe_ord ord r h1) as [[d h2]|].
  2: { destruct HD as (k1 & k2 & v1 & v2 & H1 & H2 & Hne). apply Hl in H1, H2. congruence. }
  destruct HD as (n & Hn & Hz & Wd & Xd & _ & _ & Ha). exists d, h2, (raw_cols h1 r), (ostr h1 (r_strs r)).
  split; [done|]. split; [done|]. split; [by eapply ext_trans|]. split; [|split].
  - rewrite Ha, En, Cp. f_equal. destruct (decide (csv_names o header = ∅)) as [E0|E0].
    + apply Hz. apply map_empty. intros [k c]. destruct (raw_cols h1 r !! (k, c)) as [vs|] eqn:Ek; [|done].
      apply H in Ek as (Hc & _). apply Hin in Hc. set_solver.
    + apply set_choose_L in E0 as [c Hc]. assert (Hk : raw_cols h1 r !! (Kof o header recs c, c) = Some (Vof o header recs c)).
      { apply H. split; [by apply Hin|done]. }
      rewrite <- (Hn _ _ Hk). by apply (Hl _ _ Hk).
  - intros k c vs. rewrite (H k c vs), Hin. done.
  - intros c. rewrite (Mk c), Hin. done.
Qed.
Lemma from_csv_runs o header recs rnd keys h q w m (s : pool unit) : (forall c, c ∈ keys -> exists l, cells_of header recs c l) ->
  (forall c, c ∈ keys <-> c ∈ header /\ c ∉ rs_exclude o) -> NoDup keys -> "" ∉ keys ->
  csv_queue o rnd keys = (q, w) ->
  steps false (length keys) (csv_job o header recs) m (pool_init q w h) s ->
  p_crash s = false /\ m <= 5 * length keys + Z.to_nat w + 1 /\
  (~ closed (length keys) s -> exists s', step false (length keys) (csv_job o header recs) s s') /\
  (closed (length keys) s ->
    exists r h1, from_csv o header recs (w_log <$> p_ws s) h = Ok (r, h1) /\
    forall ord, ord ≡ₚ map_to_list (mp h1 (r_maps r)) ->
    exists d h2, to_dataframe_ord ord r h1 = Ok (d, h2) /\ wf h2 d /\ preserved h h2 /\
      t_rows (abs h2 d) = (if decide (keys = []) then 0 else length recs) /\
      forall c l, c ∈ keys -> cells_of header recs c l ->
        exists k vs, t_cols (abs h2 d) !! (k, c) = Some vs /\ reads_as (rs_missing o) k l vs /\
          forall k' vs', t_cols (abs h2 d) !! (k', c) = Some vs' -> k' = k).
Proof.
  intros Hw Hk Hnd He Eq Hs.
  assert (Hkp : keys ≡ₚ elements (csv_names o header)).
  { apply NoDup_Permutation; [done|apply NoDup_elements|]. intros c. by rewrite Hk, elem_of_elements, elem_of_csv_names. }
  assert (Hj : forall c, c ∈ keys -> csv_job o header recs c = JRet tt).
  { intros c Hc. unfold csv_job. destruct (Hw c Hc) as [l Hl]. by rewrite (cells_of_native o _ _ _ _ Hl). }
  assert (Hseq : seq_all ((fun k => (k, csv_job o header recs k)) <$> keys) h = Some ((fun k => (k, tt)) <$> keys, h)).
  { clear -Hj. induction keys as [|c keys IH]; [done|]. rewrite !fmap_cons. simpl. rewrite (Hj c) by (by left). simpl.
    rewrite IH; [done|]. intros c' Hc'. apply Hj. by right. }
  destruct (C42_schedules_agree_partial_main unit false (csv_job o header recs) (fun _ _ => False) (fun _ _ => False)
    rnd keys (max_cpu (rs_cpu o)) h q w m s ((fun k => (k, tt)) <$> keys) h Hnd He) as [Hc _]; [|done|done|done|done|].
  { intros k Hk'. rewrite Hj by done. constructor. }
  destruct (C41_every_key_once_partial_main unit false (csv_job o header recs) rnd keys (max_cpu (rs_cpu o)) h q w m s He Eq Hs)
    as (_ & _ & H3 & H4 & H5).
  split; [done|]. split.
  { rewrite (H5 0); [lia|]. intros k Hk'. rewrite Hj by done. constructor. }
  split.
  { intros Hn. apply H4; [|done|done]. unfold max_cpu. pose proof rt_ncpu_ok. destruct (decide _); lia. }
  intros Hcl. destruct (H3 Hcl) as (_ & Hlog & _ & _).
  destruct (from_csv_cells o header recs (w_log <$> p_ws s) h) as (r & h1 & E & HT).
  { intros c Hc'. apply Hw, Hk. by apply elem_of_csv_names in Hc'. }
  { by rewrite Hlog. }
  exists r, h1. split; [done|]. intros ord Ho. destruct (HT ord Ho) as (d & h2 & cols & strs & E2 & W2 & X2 & Ha & Hcols & Hstr).
  exists d, h2. split; [done|]. split; [done|]. split; [by apply ext_preserved|]. rewrite Ha. simpl.
  assert (Hkc : forall c, c ∈ keys <-> c ∈ csv_names o header) by (intros c; by rewrite Hk, elem_of_csv_names).
  split.
  - destruct (decide (csv_names o header = ∅)) as [E0|E0], (decide (keys = [])) as [E1|E1]; try done.
    + destruct keys as [|c ?]; [done|]. assert (c ∈ csv_names o header) by (apply Hkc; by left). set_solver.
    + destruct E0. subst keys. apply set_eq. intros c. rewrite <- Hkc. set_solver.
  - intros c l Hc' Hl. assert (Hch : c ∈ header) by (by apply Hk).
    pose proof (cells_of_list header recs c l Hl) as Hl'. rewrite (cells_of_fun _ _ _ _ _ Hl Hl') in *.
    destruct (C45_kinds_main o header recs c _ Hl') as (k & vs & En & Hr & _).
    rewrite (cells_of_native o _ _ _ _ Hl') in En. injection En as E3 E4.
    exists (Kof o header recs c), (Vof o header recs c). split; [apply Hcols; by rewrite <- Hkc|]. split.
    + unfold Vof, Kof. by rewrite E3 in *; rewrite E4.
    + intros k' vs' H'. apply Hcols in H' as (_ & <- & _). done.
Qed.
End frame.

(** A job that panics is never notified. *)
Lemma step_panic {R} deferred n (prog : string -> job R) c m s0 s :
  prog c = JPanic -> steps deferred n prog m s0 s ->
  let ok s := (c ∉ (p_chan s).*1 /\ c ∉ (p_got s).*1 /\
    forall i x, p_ws s !! i = Some x -> c ∉ (w_def x).*1 /\
      match w_st x with WRun k j => k = c -> j = JPanic | WSend k _ => k <> c | _ => True end) in
  ok s0 -> ok s.
Proof.
  intros Hp Hs ok H0. induction Hs as [|m s1 s2 s3 Hs IH Hst]; [done|]. specialize (IH H0). clear H0 Hs.
  destruct IH as (Hch & Hgot & Hws).
  assert (Hset : forall (q : list string) ch got hp cr i x, c ∉ ch.*1 -> c ∉ got.*1 ->
    c ∉ (w_def x).*1 -> match w_st x with WRun k j => k = c -> j = JPanic | WSend k _ => k <> c | _ => True end ->
    ok (set_w (Pool q (p_ws s2) ch got hp cr) i x)).
  { intros q ch got hp cr i x H1 H2 H3 H4. split; [done|]. split; [done|]. intros j y. unfold set_w. cbn [p_ws].
    rewrite list_lookup_insert_Some. intros [(-> & <- & _)|[_ Hy]]; [done|]. by apply (Hws j). }
  assert (Hset' : forall i x, c ∉ (w_def x).*1 -> match w_st x with WRun k j => k = c -> j = JPanic | WSend k _ => k <> c | _ => True end ->
    ok (set_w s2 i x)).
  { intros i x. destruct s2. by apply Hset. }
  inversion Hst; subst; try (match goal with H : p_ws _ !! _ = Some _ |- _ => pose proof (Hws _ _ H) as [Hd Hj]; cbn [w_def w_st] in Hd, Hj end);
    try (split; [done|]; split; [done|]; exact Hws).
  - apply Hset; try done. cbn [w_st]. by intros ->.
  - by apply Hset.
  - by apply Hset'.
  - apply Hset'; [done|]. cbn [w_st]. intros E. by specialize (Hj E).
  - apply Hset; try done. cbn [w_st]. intros E. by specialize (Hj E).
  - apply Hset'; [done|]. cbn [w_st]. intros E. by specialize (Hj E).
  - apply Hset'; [|done]. cbn [w_def]. rewrite fmap_cons. apply not_elem_of_cons. split; [|done]. cbn. intros <-. by specialize (Hj eq_refl).
  - apply Hset; try done. rewrite fmap_app, not_elem_of_app. split; [done|]. cbn. rewrite elem_of_list_singleton. naive_solver.
  - rewrite fmap_cons, not_elem_of_cons in Hd. destruct Hd as [Hd1 Hd2]. apply Hset; try done.
    rewrite fmap_app, not_elem_of_app. split; [done|]. cbn. rewrite elem_of_list_singleton. naive_solver.
  - rename select (p_chan s2 = _) into Ec. rewrite Ec, fmap_cons, not_elem_of_cons in Hch. destruct Hch as [? ?].
    split; [done|]. split; [|done]. cbn [p_got]. rewrite fmap_app, not_elem_of_app. split; [done|]. cbn. rewrite elem_of_list_singleton. naive_solver.
Qed.
Lemma panic_never_ends R deferred (prog : string -> job R) rnd keys mw h q w m s c :
  c ∈ keys -> prog c = JPanic -> create_queue rnd keys mw = (q, w) ->
  steps deferred (length keys) prog m (pool_init q w h) s -> ~ closed (length keys) s.
Proof.
  intros Hc Hp Eq Hs Hcl. destruct (decide ("" ∈ keys)) as [He|He]; [by eapply C41_empty_key_blocks_main|].
  destruct (C41_every_key_once_partial_main R deferred prog rnd keys mw h q w m s He Eq Hs) as (_ & _ & H3 & _).
  destruct (H3 Hcl) as (Hg & _). destruct (step_panic _ _ _ c _ _ _ Hp Hs) as (_ & Hn & _).
  - split; [apply not_elem_of_nil|]. split; [apply not_elem_of_nil|]. intros i x Hx. cbn [pool_init p_ws] in Hx. apply lookup_replicate in Hx as [-> _].
    split; [apply not_elem_of_nil|done].
  - apply Hn. by rewrite Hg.
Qed.

Section main.
Context {crt : CsvRT} {rt : GoRT}.
Lemma native_short o recs col : one_width recs -> (exists r, r ∈ recs /\ length r <= col) -> native o recs col = Panic.
Proof.
  intros Ho (r & Hr & Hl). destruct recs as [|r0 recs]; [by apply elem_of_nil in Hr|].
  assert (H0 : r0 !! col = None) by (apply lookup_ge_None; rewrite (Ho r0 r); [done|left|done]).
  assert (Hc : rcell r0 col = Panic) by (unfold rcell; by rewrite H0). unfold native, is_binary, is_bool. cbn [all_rows]. rewrite Hc.
  destruct (rs_binary_float o); cbn; [|done]. rewrite orb_true_r. cbn. destruct (decide (rs_missing o = [])); cbn; [|by rewrite Hc].
  destruct (rs_int_float o); cbn; by rewrite Hc.
Qed.
Lemma cells_or_short header recs c : c ∈ header ->
  (exists l, cells_of header recs c l) \/ exists col r, index_of c header = Some col /\ r ∈ recs /\ length r <= col.
Proof.
  intros Hc. destruct (index_of_is_some c header Hc) as [col E]. destruct (decide (Exists (fun r : list string => length r <= col) recs)) as [H|H].
  - right. apply Exists_exists in H as (r & Hr & Hl). by exists col, r.
  - left. exists (cell_list header recs c). exists col. apply index_of_some in E as E'. destruct E' as [E1 E2]. split; [done|]. split; [done|].
    unfold cell_list. rewrite E. clear -H. induction recs as [|r recs IH]; [constructor|]. rewrite fmap_cons. constructor.
    + destruct (r !! col) eqn:Er; [done|]. apply lookup_ge_None in Er. destruct H. by left.
    + apply IH. intros H'. destruct H. by right.
Qed.
Lemma csv_open_width d o text header recs : csv_open d o text = Some (header, recs) -> one_width recs.
Proof.
  unfold csv_open. destruct (csv_records d text) as [l|] eqn:E; [|done]. cbn [mbind option_bind].
  apply csv_records_width in E as [Ho Hn]. unfold csv_split. destruct (rs_header o); [destruct l as [|h' l]; [done|]|]; intros [= <- <-]; [|done].
  intros r r' Hr Hr'. apply Ho; by right.
Qed.
Lemma C86_returns_main : forall (dl : dialect) (o : rspec) (text : string) (header : list string) (recs : list (list string))
    (rnd : nat -> nat) (keys : list string) (h : heap) (q : list string) (w : Z) (m : nat) (s : pool unit),
  csv_open dl o text = Some (header, recs) ->
  NoDup keys -> (forall c, c ∈ keys <-> c ∈ header /\ c ∉ rs_exclude o) ->
  csv_queue o rnd keys = (q, w) ->
  steps false (length keys) (csv_job o header recs) m (pool_init q w h) s ->
  (* a header from the file fits the records *)
  (rs_header o = [] -> forall c, c ∈ keys -> exists l, cells_of header recs c l) /\
  (* FromCSV returns if every column that is wanted has a name and cells *)
  ("" ∉ keys -> (forall c, c ∈ keys -> exists l, cells_of header recs c l) ->
     p_crash s = false /\ m <= 5 * length keys + Z.to_nat w + 1 /\
     (~ closed (length keys) s -> exists s', step false (length keys) (csv_job o header recs) s s') /\
     (closed (length keys) s ->
       exists r h1, from_csv o header recs (w_log <$> p_ws s) h = Ok (r, h1) /\
       forall ord, ord ≡ₚ map_to_list (mp h1 (r_maps r)) ->
       exists d h2, to_dataframe_ord ord r h1 = Ok (d, h2) /\ wf h2 d /\ preserved h h2 /\
         t_rows (abs h2 d) = (if decide (keys = []) then 0 else length recs) /\
         forall c l, c ∈ keys -> cells_of header recs c l ->
           exists k vs, t_cols (abs h2 d) !! (k, c) = Some vs /\ reads_as (rs_missing o) k l vs /\
             forall k' vs', t_cols (abs h2 d) !! (k', c) = Some vs' -> k' = k)) /\
  (* and only then *)
  ("" ∈ keys \/ (exists c, c ∈ keys /\ ~ exists l, cells_of header recs c l) -> ~ closed (length keys) s).
Proof.
  intros dl o text header recs rnd keys h q w m s Eo Hnd Hk Eq Hs. split; [|split].
  - intros Hh c Hc. destruct (csv_open_wide dl o text header recs Hh Eo) as [_ Hw].
    destruct (cells_of_total header recs c) as (l & Hl & _); [by apply Hk| |by exists l].
    apply Forall_forall. intros r Hr. rewrite (Hw r Hr). done.
  - intros He Hc. by eapply from_csv_runs.
  - intros [He|(c & Hc & Hn)]; [by eapply C41_empty_key_blocks_main|].
    eapply panic_never_ends; [exact Hc| |exact Eq|exact Hs]. unfold csv_job, native_col.
    destruct (cells_or_short header recs c) as [H|(col & r & E & Hr & Hl)]; [by apply Hk|done|]. rewrite E.
    rewrite native_short; [done|by eapply csv_open_width|by exists r].
Qed.
Lemma C49_text_main : forall (order : nat -> gset string -> list string) (flush : nat -> bool) (wo : wspec) (ro : rspec)
    (wd : wdialect) (dl : dialect) (h : heap) (d : dframe) (file : list (list string)) (text : string) (h1 : heap) (logs : list (list string)),
  wf h d -> perm_order order -> (forall j, flush j = true) -> d_viewed d = false \/ ws_order wo = true ->
  (forall c, c ∈ t_strs (abs h d) <-> is_Some (t_cols (abs h d) !! (KObj, c))) ->
  (forall k k' c, is_Some (t_cols (abs h d) !! (k, c)) -> is_Some (t_cols (abs h d) !! (k', c)) -> k = k') ->
  (forall k vs, t_cols (abs h d) !! k = Some vs -> numbers_ok vs) ->
  default_types ro -> rs_header ro = [] -> rs_exclude ro = [] ->
  to_1csv order flush wo d h = Ok (file, false, h1) ->
  csv_text wd file = Some text ->
  (* the same delimiter for writing and reading *)
  wd_comma wd = di_comma dl -> usable dl -> no_blank_comma dl ->
  (* no line is blank or like a comment, and no field has a line end that changes *)
  (forall r, r ∈ file -> ~ blank_record r /\ ~ comment_like (di_comma dl) (di_comment dl) r /\
     forall f, f ∈ r -> field_back (wd_crlf wd) f = f) ->
  exists header recs, csv_open dl ro text = Some (header, recs) /\
  (forall c, c ∈ header <-> exists k, is_Some (t_cols (abs h d) !! (k, c))) /\
  (concat logs ≡ₚ header ->
   exists r h2, from_csv ro header recs logs h1 = Ok (r, h2) /\
   forall ord, ord ≡ₚ map_to_list (mp h2 (r_maps r)) ->
   exists d' h3, to_dataframe_ord ord r h2 = Ok (d', h3) /\ wf h3 d' /\ preserved h h3 /\
     t_rows (abs h3 d') = t_rows (abs h d) /\
     (forall c, (exists k, is_Some (t_cols (abs h3 d') !! (k, c))) <-> exists k, is_Some (t_cols (abs h d) !! (k, c))) /\
     (forall k c vs, t_cols (abs h d) !! (k, c) = Some vs ->
        t_cols (abs h3 d') !! (k, c) = Some vs <-> survives (ws_marker wo) (rs_missing ro) k vs) /\
     (t_cols (abs h3 d') = t_cols (abs h d) /\ t_strs (abs h3 d') = t_strs (abs h d) <->
        forall k vs, t_cols (abs h d) !! k = Some vs -> survives (ws_marker wo) (rs_missing ro) k.1 vs)).
Proof.
  intros order flush wo ro wd dl h d file text h1 logs W P Hf Ho Hs Hu Hnum Hdt Hh Hx E Ht Hcomma Husable Hnb Hfile.
  assert (How : one_width file).
  { destruct (to_1csv_all order wo h d W P) as (h1' & X & _ & _ & E'). rewrite (E' flush Hf) in E. rewrite sort_id in E by done.
    destruct (t_records _ _ _) as [rows|] eqn:Er; [|done]. injection E as <- _. destruct (t_records_length _ _ _ _ Er) as [_ Hw].
    rewrite Forall_forall in Hw.
    assert (Hall : forall r, r ∈ (snd <$> keys_of order (abs h d)) :: rows -> length r = length (keys_of order (abs h d))).
    { intros r [->|Hr]%elem_of_cons; [apply fmap_length|by apply Hw]. }
    intros r r' Hr Hr'. by rewrite (Hall r Hr), (Hall r' Hr'). }
  assert (Hrec : csv_records dl text = Some file).
  { apply (C85_identity_main wd dl file text Hcomma Husable Hnb); [|done|].
    - intros r Hr Hc. by destruct (Hfile r Hr) as (_ & ? & _).
    - split; [done|]. intros r Hr. destruct (Hfile r Hr) as (Hbl & Hcm & Hfd). unfold blank_record in Hbl.
      split; [naive_solver|]. split; [naive_solver|]. done. }
  assert (Htr : transport file = file).
  { unfold transport. clear -Hfile. induction file as [|r file IH]; [done|]. destruct (Hfile r) as (Hbl & _ & Hfd); [left|].
    unfold blank_record in Hbl. rewrite filter_cons_True by naive_solver. cbn [map]. rewrite IH by (intros; apply Hfile; by right). f_equal.
    clear -Hfd. induction r as [|f r IHr]; [done|]. cbn [map]. rewrite IHr by (intros; apply Hfd; by right). f_equal.
    specialize (Hfd f ltac:(left)). destruct (wd_crlf wd); [|exact Hfd]. destruct (field_back_id_main f) as (H1 & H2 & _).
    exact (H2 (proj1 H1 Hfd)). }
  destruct (C49_round_trip_main order flush wo ro h d file h1 logs W P Hf Ho Hs Hu Hnum Hdt Hh Hx E Htr) as (header & recs & Es & Hrest).
  exists header, recs. split; [|exact Hrest]. unfold csv_open. rewrite Hrec. cbn [mbind option_bind]. by rewrite Htr in Es.
Qed.
End main.

(** ** Cases *)
Definition comma : ascii := ","%char.
Definition unix : wdialect := WDialect comma false.
Definition dos : wdialect := WDialect comma true.
Definition plain_d : dialect := Dialect comma None false false.
Definition hash_d : dialect := Dialect comma (Some "#"%char) false false.
Definition lf : string := String cLF "".
Definition crlf_s : string := String cCR lf.
Definition dq : string := String cQuote "".
Definition c85_recs : list (list string) := [["a,b"; " c"]; ["x" +:+ lf +:+ "y"; dq]; [""; "z"]].
Lemma C85_check_main : csv_text unix c85_recs =
    Some (dq +:+ "a,b" +:+ dq +:+ "," +:+ dq +:+ " c" +:+ dq +:+ lf +:+ dq +:+ "x" +:+ lf +:+ "y" +:+ dq +:+ "," +:+ dq +:+ dq +:+ dq +:+ dq +:+ lf +:+ ",z" +:+ lf) /\
  usable plain_d /\ no_blank_comma plain_d /\ (csv_text unix c85_recs ≫= csv_records plain_d) = Some c85_recs /\
  (csv_text dos c85_recs ≫= csv_records plain_d) = Some c85_recs /\
  (* blank lines and comments disappear *)
  (csv_text unix [["a"]; ["#b"]; [""]; ["c"]] ≫= csv_records hash_d) = Some [["a"]; ["c"]].
Proof. repeat split; try done; by vm_compute. Qed.
(** A file that is written is not always read as it was. *)
Lemma C85_line_end_refuted_main : exists recs : list (list string), recs = [["a"]; ["x" +:+ crlf_s +:+ "y"]] /\
  (csv_text unix recs ≫= csv_records plain_d) = Some [["a"]; ["x" +:+ lf +:+ "y"]].
Proof. eexists. split; [done|]. by vm_compute. Qed.
Lemma C85_blank_refuted_main : exists recs : list (list string), recs = [["a"]; [""]; ["x"]] /\
  (csv_text unix recs ≫= csv_records plain_d) = Some [["a"]; ["x"]].
Proof. eexists. split; [done|]. by vm_compute. Qed.
Lemma C85_comment_refuted_main : exists recs : list (list string), recs = [["a"; "b"]; ["#1"; "2"]] /\
  (csv_text unix recs ≫= csv_records hash_d) = Some [["a"; "b"]].
Proof. eexists. split; [done|]. by vm_compute. Qed.
(** The rest of a record that looks like a comment is read as another record. *)
Lemma C85_comment_lines_refuted_main : exists recs : list (list string), recs = [["a"; "b"]; ["#1"; "x" +:+ lf +:+ "u,v"]] /\
  (csv_text unix recs ≫= csv_records (Dialect comma (Some "#"%char) true false)) = Some [["a"; "b"]; ["u"; "v" +:+ dq]] /\
  (csv_text unix recs ≫= csv_records hash_d) = None.
Proof. eexists. split; [done|]. by vm_compute. Qed.
Definition tab : ascii := "009"%char.
Lemma C85_blank_comma_refuted_main : exists recs : list (list string), recs = [["a"; "b"]; [""; "x"]] /\
  (csv_text (WDialect tab false) recs ≫= csv_records (Dialect tab None false true)) = None.
Proof. eexists. split; [done|]. by vm_compute. Qed.

Section wit.
Existing Instance ex_rt.
Existing Instance ex_crt.
(** Three names for records of two cells. *)
Definition c86_o : rspec := RSpec 1 ["a"; "b"; "c"] [] [""] false false false None.
Definition c86_text : string := "1,2" +:+ lf.
Definition c86_start : pool unit := let '(q, w) := csv_queue c86_o id ["c"; "b"; "a"] in pool_init q w heap0.
Definition c86_run (l : list (option nat)) : option (pool unit) := exec false 3 (csv_job c86_o ["a"; "b"; "c"] [["1"; "2"]]) l c86_start.
Definition c86_sched : list (option nat) := [Some 0; Some 0].
Definition c86_end : pool unit := default c86_start (c86_run c86_sched).
Lemma C86_short_record_panics_main : exists (o : rspec) (text : string) (header : list string) (recs : list (list string)) (m : nat) (s : pool unit),
  csv_open plain_d o text = Some (header, recs) /\
  (let '(q, w) := csv_queue o id ["c"; "b"; "a"] in steps false 3 (csv_job o header recs) m (pool_init q w heap0) s) /\ p_crash s = true.
Proof.
  exists c86_o, c86_text, ["a"; "b"; "c"], [["1"; "2"]], (length c86_sched), c86_end. split; [by vm_compute|].
  split; [|by vm_compute]. change (steps false 3 (csv_job c86_o ["a"; "b"; "c"] [["1"; "2"]]) (length c86_sched) c86_start c86_end).
  apply exec_steps. by vm_compute.
Qed.
(** A column without a name: FromCSV waits for ever. *)
Definition c86_unnamed : string := ",a" +:+ lf +:+ "0,1" +:+ lf.
Lemma C86_unnamed_column_hangs_main : exists (text : string) (header : list string) (recs : list (list string)),
  csv_open plain_d ro0 text = Some (header, recs) /\
  forall (rnd : nat -> nat) (h : heap) (q : list string) (w : Z) (m : nat) (s : pool unit), csv_queue ro0 rnd header = (q, w) ->
    steps false (length header) (csv_job ro0 header recs) m (pool_init q w h) s -> ~ closed (length header) s.
Proof.
  exists c86_unnamed, ["";"a"], [["0"; "1"]]. split; [by vm_compute|]. intros rnd h q w m s Eq Hs.
  eapply C41_empty_key_blocks_main; [|exact Eq|exact Hs]. left.
Qed.
(** A text that is read. *)
Definition c86_good : string := "# comment" +:+ lf +:+ "b,s" +:+ lf +:+ lf +:+ "true," +:+ dq +:+ "u" +:+ lf +:+ "v" +:+ dq +:+ crlf_s +:+ "0,".
Lemma C86_check_main : csv_open hash_d ro0 c86_good = Some (["b"; "s"], [["true"; "u" +:+ lf +:+ "v"]; ["0"; ""]]) /\
  native_col ro0 ["b"; "s"] [["true"; "u" +:+ lf +:+ "v"]; ["0"; ""]] "b" = Ok (KBool, [VBool true; VBool false]) /\
  native_col ro0 ["b"; "s"] [["true"; "u" +:+ lf +:+ "v"]; ["0"; ""]] "s" = Ok (KObj, [VObj (OStr ("u" +:+ lf +:+ "v")); VObj ONil]).
Proof. by vm_compute. Qed.
(** The example of C49 as text. *)
Definition c49_text : string := default "" (csv_text dos c49_file).
Lemma C49_text_check_main : csv_text dos c49_file = Some c49_text /\ csv_open plain_d ro0 c49_text = csv_split ro0 c49_file /\
  (forall r, r ∈ c49_file -> ~ blank_record r /\ ~ comment_like (di_comma plain_d) (di_comment plain_d) r /\ forall f, f ∈ r -> field_back true f = f).
Proof.
  split; [by vm_compute|]. split; [by vm_compute|].
  assert (H : forallb (fun r => negb (bool_decide (r = [] \/ r = [""])) && forallb (fun f => bool_decide (field_back true f = f)) r) c49_file = true) by (by vm_compute).
  intros r Hr. rewrite forallb_forall in H. apply elem_of_list_In, H, andb_true_iff in Hr as [H1 H2]. apply negb_true_iff, bool_decide_eq_false in H1.
  split; [exact H1|]. split; [by intros (k & ? & ? & ? & _)|]. intros f Hf. rewrite forallb_forall in H2. by apply elem_of_list_In, H2, bool_decide_eq_true in Hf.
Qed.
End wit.
