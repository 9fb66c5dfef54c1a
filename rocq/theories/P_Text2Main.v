(** C85: texts without a final line end, and headers given by the user. *)
From Verif Require Import M_CsvText Spec_CsvText P_CsvText.
From Verif Require Import P_Exec.
From Verif Require Import P_CsvMain P_TextMain.

Definition eol : string := String cLF "".
Lemma norm_lf s : norm_lines (s +:+ eol) = norm_lines s +:+ eol.
Proof.
  induction s as [|c s IH]; [done|]. rewrite sapp_cons, !norm_cons. destruct (decide (c = cCR)) as [->|Hc].
  - destruct s as [|x s]; [done|]. rewrite sapp_cons in *. destruct (decide (x = cLF)) as [->|Hx]; [done|].
    by rewrite IH.
  - by rewrite IH.
Qed.
Lemma norm_crlf s : (forall t, s <> t +:+ String cCR "") -> norm_lines (s +:+ String cCR eol) = norm_lines s +:+ eol.
Proof.
  induction s as [|c s IH]; intros H; [done|].
  assert (Hs : forall t, s <> t +:+ String cCR "") by (intros t ->; by apply (H (String c t))).
  specialize (IH Hs). rewrite sapp_cons, !norm_cons. destruct (decide (c = cCR)) as [->|Hc].
  - destruct s as [|x s]; [by destruct (H "")|]. rewrite sapp_cons in *. destruct (decide (x = cLF)) as [->|Hx]; [done|]. by rewrite IH.
  - by rewrite IH.
Qed.
Lemma code_lf : code cLF = 10.
Proof. by vm_compute. Qed.
Lemma space_len_lf c s : space_len (String c (s +:+ eol)) = space_len (String c s).
Proof.
  destruct s as [|b [|x s]]; unfold eol.
  - rewrite sapp_nil_l. cbn [space_len]. rewrite code_lf. repeat destruct (decide _); first [reflexivity | exfalso; lia].
  - rewrite sapp_cons, sapp_nil_l. cbn [space_len]. rewrite code_lf. repeat destruct (decide _); first [reflexivity | exfalso; lia].
  - done.
Qed.
Lemma react_lf d st c s : react d st (String c (s +:+ eol)) c = react d st (String c s) c.
Proof.
  destruct st as [| |fs [|k]| | |]; cbn [react]; unfold at_field; rewrite ?space_len_lf; done.
Qed.
(** No quoted field is open. *)
Definition unquoted (d : dialect) (st : rstate) (s : string) : Prop :=
  di_lazy d = false \/ (has cQuote s = false /\ match st with RQuoted _ _ | RQuote _ _ => False | _ => True end).
Lemma unquoted_step d st c s st' : unquoted d st (String c s) -> react d st (String c s) c = Goto st' -> unquoted d st' s.
Proof.
  intros [H|[H Hst]]; [by left|]. intros E. right. cbn [has] in H. apply orb_false_iff in H as [Hc H].
  apply bool_decide_eq_false in Hc. split; [done|].
  destruct st as [| |fs [|k]| | |]; cbn [react] in E; unfold at_field in E; repeat case_match; simplify_eq; try done.
Qed.
Lemma run_lf d st s : usable d -> unquoted d st s -> run_reader d st (s +:+ eol) = run_reader d st s.
Proof.
  intros Hu. pose proof (comma_ok d Hu) as (_ & _ & Hl & _).
  assert (Hlf : Some cLF <> di_comment d).
  { intros Hk. destruct Hu as [_ Hu']. destruct (Hu' cLF) as [Hv _]; [done|]. apply bool_decide_eq_true in Hv. naive_solver. }
  revert st. induction s as [|c s IH]; intros st Hq.
  - rewrite sapp_nil_l. unfold eol. rewrite run_cons. cbn [run_reader].
    destruct st as [| |fs [|k]|fs b|fs b|fs b]; cbn [react]; unfold at_field.
    + rewrite decide_False by done. by rewrite decide_True.
    + by rewrite decide_True.
    + by rewrite decide_True.
    + done.
    + rewrite decide_False by congruence. by rewrite decide_True.
    + rewrite decide_False by done. destruct Hq as [Hq|[_ []]]. cbn [at_end]. by rewrite Hq.
    + rewrite decide_False by done. rewrite decide_False by congruence. by rewrite decide_True.
  - rewrite sapp_cons, !run_cons, react_lf. destruct (react d st (String c s) c) eqn:E.
    + apply IH. by eapply unquoted_step.
    + rewrite IH; [done|]. destruct Hq as [Hq|[Hq _]]; [by left|right]. cbn [has] in Hq. apply orb_false_iff in Hq as [_ Hq]. done.
    + done.
Qed.
Lemma has_norm c s : has c s = false -> has c (norm_lines s) = false.
Proof.
  induction s as [|x s IH]; [done|]. cbn [has]. intros [Hx Hs]%orb_false_iff. specialize (IH Hs). rewrite norm_cons.
  destruct (decide (x = cCR)); [destruct s; [done|destruct (decide _); [done|]]|]; cbn [has]; by rewrite Hx, IH.
Qed.
Lemma C85_last_line_main : forall (d : dialect) (text : string), usable d -> di_lazy d = false \/ has cQuote text = false ->
  csv_records d (text +:+ String cLF "") = csv_records d text /\
  ((forall t, text <> t +:+ String cCR "") -> csv_records d (text +:+ String cCR (String cLF "")) = csv_records d text).
Proof.
  intros d text Hu Hq.
  assert (Hn : unquoted d RStart (norm_lines text)).
  { destruct Hq as [Hq|Hq]; [by left|right]. split; [by apply has_norm|done]. }
  unfold csv_records. split.
  - fold eol. by rewrite norm_lf, run_lf.
  - intros Ht. fold eol. by rewrite norm_crlf, run_lf.
Qed.
(** A header given by the user is like a first line with these names. *)
Definition with_header (H : list string) (o : rspec) : rspec :=
  RSpec (rs_cpu o) H (rs_exclude o) (rs_missing o) (rs_int_float o) (rs_bool_float o) (rs_binary_float o) (rs_enc o).
Lemma C85_given_header_main : forall (w : wdialect) (d : dialect) (o : rspec) (text : string) (H header : list string) (recs : list (list string)),
  wd_comma w = di_comma d -> usable d -> no_blank_comma d ->
  H <> [] -> H <> [""] -> ~ comment_like (di_comma d) (di_comment d) H -> (forall f, f ∈ H -> field_back (wd_crlf w) f = f) ->
  csv_open d (with_header [] o) (record_text w H +:+ text) = Some (header, recs) <->
  csv_open d (with_header H o) text = Some (header, recs) /\ forall r, r ∈ recs -> length r = length H.
Proof.
  intros w d o text H header recs Hw Hu Hb H1 H2 H3 H4. unfold csv_open, csv_records, csv_split.
  rewrite usable_check by done. cbn [with_header rs_header]. rewrite norm_record by (rewrite Hw; exact (proj1 Hu)).
  destruct (run_record d w Hw Hu Hb H (norm_lines text)) as [_ Hr]; [done|].
  rewrite Hr by (intros [[?|?]|?]; done). clear Hr.
  assert (Hid : field_back (wd_crlf w) <$> H = H).
  { clear -H4. induction H as [|f r IH]; [done|]. rewrite fmap_cons, IH by (intros; apply H4; by right). f_equal. apply H4. left. }
  rewrite Hid. destruct (run_reader d RStart (norm_lines text)) as [l|]; cbn [mbind option_bind]; [|naive_solver].
  destruct (same_width_spec (H :: l)) as [Hs1 Hs2]. destruct (same_width_spec l) as [Hl1 Hl2].
  assert (Hdec : one_width (H :: l) \/ ~ one_width (H :: l)).
  { unfold same_width in *. destruct (forallb _ (H :: l)) eqn:E.
    - left. rewrite forallb_forall in E. intros r1 r2 X1 X2. apply elem_of_list_In in X1, X2. apply E in X1, X2. apply bool_decide_eq_true in X1, X2. congruence.
    - right. intros X. specialize (Hs1 X). done. }
  assert (Hwid : one_width (H :: l) <-> forall r, r ∈ l -> length r = length H).
  { split.
    - intros X r Hr. apply X; [by right|left].
    - intros X r r' Hr Hr'. apply elem_of_cons in Hr as [->|Hr]; apply elem_of_cons in Hr' as [->|Hr']; rewrite ?(X r), ?(X r') by done; done. }
  destruct Hdec as [Hd|Hd].
  - rewrite (Hs1 Hd). cbn [mbind option_bind]. rewrite Hl1.
    2:{ intros r r' ??. apply Hd; by right. }
    cbn [mbind option_bind]. destruct H as [|c H]; [done|]. split.
    + intros [= <- <-]. split; [done|]. by apply Hwid.
    + intros [[= <- <-] _]. done.
  - rewrite (Hs2 Hd). cbn [mbind option_bind]. split; [done|]. intros [E Hall]. destruct Hd. apply Hwid.
    assert (same_width l = None \/ same_width l = Some l) as [X|X].
    { unfold same_width. destruct l; [by right|]. destruct (forallb _ _); [by right|by left]. }
    + by rewrite X in E.
    + rewrite X in E. cbn [mbind option_bind] in E. destruct H as [|c H]; [done|]. injection E as <- <-. done.
Qed.
Definition c85_open : string := "1,x" +:+ lf +:+ "2," +:+ dq +:+ "y" +:+ dq.
Lemma C85_last_check_main : csv_records plain_d c85_open = Some [["1"; "x"]; ["2"; "y"]] /\ csv_records plain_d (c85_open +:+ lf) = Some [["1"; "x"]; ["2"; "y"]] /\
  csv_open plain_d (with_header ["a"; "b"] ro0) c85_open = Some (["a"; "b"], [["1"; "x"]; ["2"; "y"]]) /\
  csv_open plain_d ro0 (record_text unix ["a"; "b"] +:+ c85_open) = Some (["a"; "b"], [["1"; "x"]; ["2"; "y"]]).
Proof. by vm_compute. Qed.
(** With LazyQuotes the last line end can become part of a field. *)
Lemma C85_last_line_lazy_refuted_main : exists (d : dialect) (text : string), usable d /\ csv_records d (text +:+ lf) <> csv_records d text.
Proof.
  exists (Dialect comma None true false), (dq +:+ "a"). split; [split; [by vm_compute|done]|]. vm_compute. intros [=].
Qed.
