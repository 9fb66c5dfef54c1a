(** C85: blank delimiters with TrimLeadingSpace, comments of several lines. *)
From Verif Require Import M_CsvText Spec_CsvText P_CsvText.
From Verif Require Import P_Exec.
From Verif Require Import P_CsvMain P_TextMain Spec_Text3.

Section blank.
Context (d : dialect) (w : wdialect).
Context (Hw : wd_comma w = di_comma d) (Hu : usable d) (Ht : di_trim d = true) (Hs : 0 < space_len (String (di_comma d) "")).
Lemma blank_len T : space_len (String (di_comma d) T) = 1.
Proof. revert Hs. cbn [space_len]. destruct (decide _); [done|lia]. Qed.
Lemma brun_field fs f x T : x = di_comma d \/ x = cLF -> f <> "" \/ x = cLF ->
  run_reader d (RField fs 0) (nfield w f +:+ String x T) = after d (fs ++ [field_back (wd_crlf w) f]) x T.
Proof.
  intros Hx Hne. pose proof (comma_ok d Hu) as (Hc1 & Hc2 & Hc3 & Hc4).
  assert (Hx' : x <> cQuote /\ code x < 128). { destruct Hx as [->| ->]; [done|]. split; [done|]. by compute; lia. }
  unfold nfield, after. destruct (needs_quotes (wd_comma w) f) eqn:E.
  - rewrite ?sapp_cons, ?sapp_nil_l. rewrite run_cons. cbn [react]. unfold at_field. rewrite (decide_False (P:=cQuote = cLF)) by done.
    assert (Es : space_len (String cQuote ((qesc (field_back (wd_crlf w) f) +:+ String cQuote "") +:+ String x T)) = 0).
    { cbn [space_len]. rewrite decide_False by (compute; lia). destruct (_ +:+ String x T) as [|b r]; [done|].
      rewrite decide_False by (intros [H _]; compute in H; lia). destruct r as [|c r]; [done|].
      rewrite decide_False; [done|]. intros [[H _]|[[H _]|[[H _]|[H _]]]]; compute in H; lia. }
    rewrite Es. rewrite (bool_decide_eq_false_2 (0 < 0)) by lia. rewrite andb_false_r, (decide_True (P:=cQuote = cQuote)) by done.
    rewrite sapp_assoc. rewrite ?sapp_cons, ?sapp_nil_l. rewrite run_quoted. rewrite run_cons. cbn [react].
    rewrite (decide_False (P:=x = cQuote)) by naive_solver. rewrite ?sapp_cons, ?sapp_nil_l.
    destruct Hx as [->| ->].
    + rewrite decide_True by done. by rewrite decide_False by done.
    + rewrite (decide_False (P:=cLF = di_comma d)) by done. rewrite decide_True by done. by rewrite decide_True by done.
  - apply needs_quotes_plain in E. rewrite (field_back_plain w) by done. destruct E as (E & _ & Es). destruct f as [|c f].
    + destruct Hne as [?| ->]; [done|]. rewrite sapp_nil_l. rewrite run_cons. cbn [react]. unfold at_field. by rewrite !decide_True.
    + rewrite Hw in E. destruct (E c) as (? & ? & ? & ?). { cbn [has]. by rewrite bool_decide_eq_true_2. }
      rewrite sapp_cons, run_cons. cbn [react]. unfold at_field. rewrite decide_False by done.
      assert (Es' : space_len (String c (f +:+ String x T)) = 0).
      { rewrite <- sapp_cons. apply space_len_app; [apply Hx'|done|done]. }
      rewrite Es', (bool_decide_eq_false_2 (0 < 0)), andb_false_r by lia. rewrite !decide_False by done.
      rewrite run_plain. 2:{ intros y Hy. apply E. cbn [has]. by rewrite Hy, orb_true_r. }
      rewrite run_cons. cbn [react]. rewrite sapp_cons, sapp_nil_l. destruct Hx as [->| ->].
      * rewrite decide_True by done. by rewrite decide_False by done.
      * rewrite (decide_False (P:=cLF = di_comma d)) by done. rewrite decide_True by done. by rewrite decide_True by done.
Qed.
Lemma brun_empty fs T : run_reader d (RField fs 0) (nfield w "" +:+ String (di_comma d) T) = run_reader d (RField fs 0) T.
Proof.
  change (nfield w "") with "". rewrite sapp_nil_l, run_cons. cbn [react]. unfold at_field.
  rewrite decide_False by (by apply comma_ok). rewrite Ht, blank_len. by rewrite (bool_decide_eq_true_2 (0 < 1)) by lia.
Qed.
Lemma brun_fields fs r T : r <> [] ->
  run_reader d (RField fs 0) (nfields w r +:+ String cLF T) =
    (l ← run_reader d RStart T; Some ((fs ++ (field_back (wd_crlf w) <$> blank_back r)) :: l)).
Proof.
  revert fs. induction r as [|f r IH]; intros fs Hr; [done|]. destruct r as [|f2 r].
  - change (nfields w [f]) with (nfield w f). rewrite brun_field by auto. unfold after. rewrite decide_True by done.
    destruct (decide (f = "")) as [->|Hf]; [by destruct (wd_crlf w)|].
    unfold blank_back. rewrite filter_cons_True by done. cbn [last]. rewrite decide_False by congruence. done.
  - change (nfields w (f :: f2 :: r)) with (nfield w f +:+ String (wd_comma w) (nfields w (f2 :: r))).
    rewrite sapp_assoc, sapp_cons, Hw. unfold blank_back. change (last (f :: f2 :: r)) with (last (f2 :: r)).
    destruct (decide (f = "")) as [->|Hf].
    + rewrite brun_empty, IH by done. rewrite (filter_cons_False _ "") by (by intros ?). done.
    + rewrite brun_field by auto. unfold after. rewrite decide_False by (by apply comma_ok). rewrite IH by done.
      rewrite (filter_cons_True _ f) by done. rewrite <- app_assoc. done.
Qed.
Lemma brun_record r T : (comment_like (di_comma d) (di_comment d) r -> one_line r) ->
  (blank_record r \/ comment_like (di_comma d) (di_comment d) r ->
   run_reader d RStart (nfields w r +:+ String cLF T) = run_reader d RStart T) /\
  (~ (blank_record r \/ comment_like (di_comma d) (di_comment d) r) ->
   run_reader d RStart (nfields w r +:+ String cLF T) =
     (l ← run_reader d RStart T; Some ((field_back (wd_crlf w) <$> blank_back r) :: l))).
Proof.
  intros Hc.
  assert (Hlf : Some cLF <> di_comment d).
  { intros Hk. destruct Hu as [_ Hu']. destruct (Hu' cLF) as [Hv _]; [done|]. apply bool_decide_eq_true in Hv. naive_solver. }
  split.
  - intros [[->| ->]|Hk].
    + change (nfields w []) with "". rewrite sapp_nil_l, run_cons. cbn [react]. rewrite decide_False by done. by rewrite decide_True.
    + change (nfields w [""]) with "". rewrite sapp_nil_l, run_cons. cbn [react]. rewrite decide_False by done. by rewrite decide_True.
    + pose proof (has_nfields d w Hw Hu r (Hc Hk)) as Hn. destruct Hk as (k & f & fs & Hk & -> & Hp).
      assert (Hq : needs_quotes (wd_comma w) (String k f) = false) by (rewrite Hw; by apply needs_quotes_plain).
      assert (exists s, nfields w (String k f :: fs) = String k s) as [s Hs'].
      { destruct fs as [|f2 fs].
        - change (nfields w [String k f]) with (nfield w (String k f)). unfold nfield. rewrite Hq. by eexists.
        - change (nfields w (String k f :: f2 :: fs)) with (nfield w (String k f) +:+ String (wd_comma w) (nfields w (f2 :: fs))).
          unfold nfield at 1. rewrite Hq. rewrite sapp_cons. by eexists. }
      rewrite Hs' in *. rewrite sapp_cons, run_cons. cbn [react]. rewrite decide_True by done.
      cbn [has] in Hn. apply orb_false_iff in Hn as [_ Hn]. by apply run_comment.
  - intros Hn. assert (Hr : r <> [] /\ r <> [""]) by (unfold blank_record in Hn; naive_solver). destruct Hr as [Hr1 Hr2].
    destruct (nfields_head d w Hw Hu r T Hr1 Hr2) as (c & s & Hs' & Hl & Hk).
    rewrite <- (app_nil_l (field_back (wd_crlf w) <$> blank_back r)). rewrite <- brun_fields by done. rewrite Hs', !run_cons. cbn [react].
    rewrite decide_False by (intros E; apply Hn; right; by apply Hk). by rewrite decide_False by done.
Qed.
Lemma brun_records recs :
  Forall (fun r => comment_like (di_comma d) (di_comment d) r -> one_line r) recs ->
  run_reader d RStart (nrecords w recs) =
    Some ((fun r => field_back (wd_crlf w) <$> blank_back r) <$>
          filter (fun r => ~ (blank_record r \/ comment_like (di_comma d) (di_comment d) r)) recs).
Proof.
  induction 1 as [|r recs Hr _ IH]; [done|]. cbn [nrecords].
  destruct (brun_record r (nrecords w recs) Hr) as [H1 H2].
  destruct (decide (blank_record r \/ comment_like (di_comma d) (di_comment d) r)) as [Hl|Hl].
  - rewrite H1, IH by done. rewrite filter_cons_False; [done|]. by intros ?.
  - rewrite H2, IH by done. rewrite filter_cons_True by done. done.
Qed.
End blank.
Lemma C85_blank_comma_main : forall (w : wdialect) (d : dialect) (recs : list (list string)) (text : string),
  wd_comma w = di_comma d -> usable d -> di_trim d = true -> 0 < space_len (String (di_comma d) "") ->
  (forall r, r ∈ recs -> comment_like (di_comma d) (di_comment d) r -> one_line r) ->
  csv_text w recs = Some text ->
  let back := (fun r => field_back (wd_crlf w) <$> blank_back r) <$> filter (fun r => ~ lost d r) recs in
  (one_width back -> csv_records d text = Some back) /\ (~ one_width back -> csv_records d text = None).
Proof.
  intros w d recs text Hw Hu Htr Hb Hc Ht back. unfold csv_text in Ht. destruct (valid_delim (wd_comma w)) eqn:Hv; [|done].
  injection Ht as <-. unfold csv_records. rewrite usable_check by done. rewrite norm_records by done.
  assert (E : run_reader d RStart (nrecords w recs) = Some back).
  { rewrite (brun_records d w Hw Hu Htr Hb) by (by apply Forall_forall). done. }
  rewrite E. cbn [mbind option_bind]. apply same_width_spec.
Qed.
(** ** Comments *)
Lemma norm_after s : norm_lines (after_line s) = after_line (norm_lines s).
Proof.
  induction s as [|c s IH]; [done|]. rewrite norm_cons. cbn [after_line]. destruct (decide (c = cLF)) as [->|Hl].
  - rewrite decide_False by done. cbn [after_line]. by rewrite decide_True.
  - destruct (decide (c = cCR)) as [->|Hr].
    + destruct s as [|e s]; [done|]. destruct (decide (e = cLF)); exact IH.
    + cbn [after_line]. rewrite decide_False by done. done.
Qed.
Lemma run_in_comment d s : run_reader d RComment s = run_reader d RStart (after_line s).
Proof.
  induction s as [|c s IH]; [done|]. rewrite run_cons. cbn [react after_line]. by destruct (decide (c = cLF)).
Qed.
Lemma norm_records_app w recs T : valid_delim (wd_comma w) = true -> norm_lines (records_text w recs +:+ T) = nrecords w recs +:+ norm_lines T.
Proof.
  intros Hv. induction recs as [|r recs IH]; [done|]. cbn [records_text nrecords]. rewrite !sapp_assoc, norm_record by done.
  by rewrite IH, sapp_cons.
Qed.
(** A line that starts with the comment character is skipped, to the first line
    end after it. *)
Lemma C85_comment_main : forall (w : wdialect) (d : dialect) (recs : list (list string)) (k : ascii) (T : string),
  wd_comma w = di_comma d -> usable d -> di_comment d = Some k ->
  (forall r, r ∈ recs -> comment_like (di_comma d) (di_comment d) r -> one_line r) ->
  csv_records d (records_text w recs +:+ String k T) = csv_records d (records_text w recs +:+ after_line T).
Proof.
  intros w d recs k T Hw Hu Hk Hc. unfold csv_records. rewrite usable_check by done.
  enough (E : run_reader d RStart (norm_lines (records_text w recs +:+ String k T)) = run_reader d RStart (norm_lines (records_text w recs +:+ after_line T))) by (by rewrite E).
  assert (Hv : valid_delim (wd_comma w) = true) by (rewrite Hw; exact (proj1 Hu)).
  rewrite !norm_records_app by done. rewrite norm_after.
  assert (Hkr : k <> cCR).
  { intros ->. destruct Hu as [_ Hu']. destruct (Hu' cCR) as [H _]; [done|]. apply bool_decide_eq_true in H. naive_solver. }
  rewrite norm_cons, decide_False by done.
  induction recs as [|r recs IH].
  - cbn [nrecords]. rewrite !sapp_nil_l, run_cons. cbn [react]. rewrite decide_True by done. apply run_in_comment.
  - cbn [nrecords]. rewrite !sapp_assoc, !sapp_cons.
    assert (IH' := IH (fun r' Hr' => Hc r' (elem_of_list_further _ _ _ Hr'))).
    assert (Hr := Hc r (elem_of_list_here _ _)).
    destruct (decide (di_trim d = true /\ 0 < space_len (String (di_comma d) ""))) as [[Ht Hb]|Hb].
    + destruct (brun_record d w Hw Hu Ht Hb r (nrecords w recs +:+ String k (norm_lines T)) Hr) as [H1 H2].
      destruct (brun_record d w Hw Hu Ht Hb r (nrecords w recs +:+ after_line (norm_lines T)) Hr) as [H3 H4].
      destruct (decide (blank_record r \/ comment_like (di_comma d) (di_comment d) r)) as [Hl|Hl].
      * by rewrite H1, H3, IH'.
      * by rewrite H2, H4, IH'.
    + assert (Hb' : no_blank_comma d). { intros Ht. destruct (space_len (String (di_comma d) "")) eqn:E; [done|]. exfalso. apply Hb. split; [done|lia]. }
      destruct (run_record d w Hw Hu Hb' r (nrecords w recs +:+ String k (norm_lines T)) Hr) as [H1 H2].
      destruct (run_record d w Hw Hu Hb' r (nrecords w recs +:+ after_line (norm_lines T)) Hr) as [H3 H4].
      destruct (decide (blank_record r \/ comment_like (di_comma d) (di_comment d) r)) as [Hl|Hl].
      * by rewrite H1, H3, IH'.
      * by rewrite H2, H4, IH'.
Qed.
(** ** Cases *)
Definition tab_d : dialect := Dialect tab None false true.
Definition c85_tabs : list (list string) := [["a"; "b"]; [""; "x"; ""]; [" y"; ""]; ["u" +:+ String tab "v"; "z"]; [""; "c"; ""; "d"]].
Lemma C85_blank_comma_check_main : usable tab_d /\ (csv_text (WDialect tab false) c85_tabs ≫= csv_records tab_d) =
  Some [["a"; "b"]; ["x"; ""]; [" y"; ""]; ["u" +:+ String tab "v"; "z"]; ["c"; "d"]].
Proof. split; [split; [by vm_compute|by intros ? ?]|]. by vm_compute. Qed.
Definition c85_note : string := "#1," +:+ dq +:+ "x" +:+ lf +:+ "u,v" +:+ lf.
Lemma C85_comment_check_main : usable hash_d /\ csv_records hash_d (records_text unix [["a"; "b"]] +:+ c85_note) = Some [["a"; "b"]; ["u"; "v"]].
Proof. split; [split; [by vm_compute|intros ? [= <-]; split; [by vm_compute|done]]|]. by vm_compute. Qed.
