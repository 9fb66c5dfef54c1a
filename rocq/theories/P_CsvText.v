(** Writing and reading the text of a CSV file. *)
From Verif Require Export Spec_CsvText.
From Coq Require Import Lia.

Lemma sapp_cons c a b : String c a +:+ b = String c (a +:+ b).
Proof. done. Qed.
Lemma sapp_nil_l a : "" +:+ a = a.
Proof. done. Qed.
Lemma has_app c a b : has c (a +:+ b) = has c a || has c b.
Proof. induction a as [|x a IH]; [done|]. rewrite sapp_cons. cbn [has]. rewrite IH. by destruct (bool_decide (x = c)). Qed.
Lemma sapp_nil s : s +:+ "" = s.
Proof. induction s as [|c s IH]; [done|]. rewrite ?sapp_cons. by rewrite IH. Qed.
Lemma sapp_assoc a b c : (a +:+ b) +:+ c = a +:+ (b +:+ c).
Proof. induction a as [|x a IH]; [done|]. rewrite ?sapp_cons. by rewrite IH. Qed.
Lemma push_app b c s : push b c +:+ s = b +:+ String c s.
Proof. unfold push. by rewrite sapp_assoc. Qed.

(** ** Line ends *)
Lemma norm_cons c r : norm_lines (String c r) =
  if decide (c = cCR) then
    match r with "" => "" | String d _ => if decide (d = cLF) then norm_lines r else String c (norm_lines r) end
  else String c (norm_lines r).
Proof. done. Qed.
Lemma norm_plain f T : has cCR f = false -> norm_lines (f +:+ T) = f +:+ norm_lines T.
Proof.
  induction f as [|c f IH]; [done|]. rewrite sapp_cons. cbn [has]. intros [Hc Hf]%orb_false_iff.
  rewrite norm_cons. case_bool_decide; [done|]. rewrite decide_False by done. by rewrite IH.
Qed.
(** A quoted field after the normalisation of its line ends. *)
Fixpoint qesc (f : string) : string :=
  match f with
  | "" => ""
  | String c f => if decide (c = cQuote) then String cQuote (String cQuote (qesc f)) else String c (qesc f)
  end.
Lemma norm_quoted crlf f T : norm_lines (escape crlf f +:+ String cQuote T) = qesc (field_back crlf f) +:+ norm_lines (String cQuote T).
Proof.
  induction f as [|c f IH]; [by destruct crlf|].
  cbn [escape]. rewrite sapp_assoc. unfold escape_byte.
  destruct (decide (c = cQuote)) as [->|Hq].
  { rewrite ?sapp_cons, ?sapp_nil_l. rewrite norm_cons, decide_False by done. rewrite norm_cons, decide_False by done. rewrite IH.
    destruct crlf; cbn [field_back without_cr].
    - rewrite (decide_False (P:=cQuote = cCR)) by done. cbn [qesc]. by rewrite decide_True.
    - assert (E : merge_crlf (String cQuote f) = String cQuote (merge_crlf f)).
      { cbn [merge_crlf]. destruct f as [|y f]; [done|]. rewrite decide_False by naive_solver. done. }
      rewrite E. cbn [qesc]. by rewrite decide_True. }
  destruct (decide (c = cCR)) as [->|Hr].
  { destruct crlf.
    - rewrite ?sapp_cons, ?sapp_nil_l. cbn [field_back without_cr]. rewrite decide_True by done. exact IH.
    - rewrite ?sapp_cons, ?sapp_nil_l. cbn [field_back]. cbn [field_back] in IH. rewrite norm_cons, decide_True by done.
      destruct f as [|y f].
      + cbn [escape merge_crlf qesc]; rewrite ?sapp_cons, ?sapp_nil_l. rewrite (decide_False (P:=cQuote = cLF)) by done.
        rewrite (decide_False (P:=cCR = cQuote)) by done. done.
      + destruct (decide (y = cLF)) as [->|Hy].
        * assert (E1 : escape false (String cLF f) +:+ String cQuote T = String cLF (escape false f +:+ String cQuote T)) by done.
          rewrite E1 in IH |- *. rewrite decide_True by done. by rewrite IH.
        * assert (Hm : merge_crlf (String cCR (String y f)) = String cCR (merge_crlf (String y f))).
          { cbn [merge_crlf]. by rewrite (decide_False (P:=cCR = cCR /\ y = cLF)) by naive_solver. }
          rewrite Hm. cbn [qesc]. rewrite (decide_False (P:=cCR = cQuote)) by done.
          assert (Hd : exists z s, escape false (String y f) +:+ String cQuote T = String z s /\ z <> cLF).
          { cbn [escape]. unfold escape_byte. destruct (decide (y = cQuote)); [eexists _, _; split; [done|by intros ?]|].
            destruct (decide (y = cCR)); [eexists _, _; split; [done|by intros ?]|].
            rewrite decide_False by done. eexists _, _; split; [done|done]. }
          destruct Hd as (z & s & Hz & Hzn). rewrite Hz in *. rewrite decide_False by done. rewrite IH. done. }
  destruct (decide (c = cLF)) as [->|Hl].
  { destruct crlf.
    - rewrite ?sapp_cons, ?sapp_nil_l. rewrite norm_cons, decide_True by done. rewrite (decide_True (P:=cLF = cLF)) by done.
      rewrite norm_cons, decide_False by done. rewrite IH. done.
    - rewrite ?sapp_cons, ?sapp_nil_l. rewrite norm_cons, decide_False by done. rewrite IH. cbn [field_back].
      assert (E : merge_crlf (String cLF f) = String cLF (merge_crlf f)).
      { cbn [merge_crlf]. destruct f as [|y f]; [done|]. rewrite decide_False by naive_solver. done. }
      rewrite E. done. }
  rewrite ?sapp_cons, ?sapp_nil_l. rewrite norm_cons, decide_False by done. rewrite IH.
  destruct crlf; cbn [field_back without_cr].
  - rewrite (decide_False (P:=c = cCR)) by done. cbn [qesc]. by rewrite decide_False by done.
  - assert (E : merge_crlf (String c f) = String c (merge_crlf f)).
    { cbn [merge_crlf]. destruct f as [|y f]; [done|]. rewrite decide_False by naive_solver. done. }
    rewrite E. cbn [qesc]. by rewrite decide_False by done.
Qed.

Lemma needs_quotes_plain comma f : needs_quotes comma f = false <-> plain_field comma f.
Proof.
  unfold needs_quotes, plain_field. rewrite andb_false_iff, negb_false_iff, bool_decide_eq_true.
  rewrite !orb_false_iff, !bool_decide_eq_false. split.
  - intros [->|[[[[[? H1] H2] H3] H4] ?]]; [done|]. split; [|split; [done|lia]].
    intros c Hc. split_and!; intros ->; congruence.
  - intros (H & ? & ?). right. split_and!; [done|..|lia];
      match goal with |- has ?x f = false => destruct (has x f) eqn:E; [|done]; apply H in E; naive_solver end.
Qed.
(** A field, a record after the normalisation. *)
Definition nfield (w : wdialect) (f : string) : string :=
  if needs_quotes (wd_comma w) f then String cQuote (qesc (field_back (wd_crlf w) f) +:+ String cQuote "") else f.
Fixpoint nfields (w : wdialect) (fs : list string) : string :=
  match fs with
  | [] => ""
  | [f] => nfield w f
  | f :: fs => nfield w f +:+ String (wd_comma w) (nfields w fs)
  end.
Lemma norm_field w f c T : c <> cCR -> norm_lines (field_text w f +:+ String c T) = nfield w f +:+ norm_lines (String c T).
Proof.
  intros Hc. unfold field_text, nfield. destruct (needs_quotes (wd_comma w) f) eqn:E.
  - rewrite ?sapp_cons, ?sapp_nil_l. rewrite norm_cons, decide_False by done. f_equal. rewrite !sapp_assoc. rewrite ?sapp_cons, ?sapp_nil_l.
    rewrite norm_quoted. by rewrite norm_cons, decide_False by done.
  - apply norm_plain. apply needs_quotes_plain in E as [E _].
    destruct (has cCR f) eqn:H; [|done]. apply E in H. naive_solver.
Qed.
Lemma norm_eol w T : norm_lines (end_of_line w +:+ T) = String cLF (norm_lines T).
Proof. unfold end_of_line. by destruct (wd_crlf w). Qed.
Lemma norm_field_eol w f T : norm_lines (field_text w f +:+ end_of_line w +:+ T) = nfield w f +:+ String cLF (norm_lines T).
Proof.
  unfold field_text, nfield. destruct (needs_quotes (wd_comma w) f) eqn:E.
  - rewrite ?sapp_cons, ?sapp_nil_l. rewrite norm_cons, decide_False by done. f_equal. rewrite !sapp_assoc. rewrite ?sapp_cons, ?sapp_nil_l.
    rewrite norm_quoted. rewrite norm_cons, decide_False by done. by rewrite norm_eol.
  - rewrite norm_plain; [by rewrite norm_eol|]. apply needs_quotes_plain in E as [E _].
    destruct (has cCR f) eqn:H; [|done]. apply E in H. naive_solver.
Qed.
Lemma norm_record w r T : valid_delim (wd_comma w) = true ->
  norm_lines (record_text w r +:+ T) = nfields w r +:+ String cLF (norm_lines T).
Proof.
  intros Hv. apply bool_decide_eq_true in Hv as (_ & _ & Hv & _). unfold record_text. rewrite sapp_assoc.
  induction r as [|f r IH]; [apply norm_eol|]. destruct r as [|f2 r].
  - apply norm_field_eol.
  - change (fields_text w (f :: f2 :: r)) with (field_text w f +:+ String (wd_comma w) (fields_text w (f2 :: r))).
    change (nfields w (f :: f2 :: r)) with (nfield w f +:+ String (wd_comma w) (nfields w (f2 :: r))).
    rewrite !sapp_assoc. rewrite ?sapp_cons, ?sapp_nil_l. rewrite norm_field by done. f_equal. rewrite norm_cons, decide_False by done. by rewrite IH.
Qed.
Fixpoint nrecords (w : wdialect) (recs : list (list string)) : string :=
  match recs with [] => "" | r :: recs => nfields w r +:+ String cLF (nrecords w recs) end.
Lemma norm_records w recs : valid_delim (wd_comma w) = true -> norm_lines (records_text w recs) = nrecords w recs.
Proof. intros Hv. induction recs as [|r recs IH]; [done|]. cbn [records_text nrecords]. by rewrite norm_record, IH. Qed.

(** ** The reader on such a text *)
Section reader.
Context (d : dialect) (w : wdialect).
Context (Hw : wd_comma w = di_comma d) (Hu : usable d) (Hb : no_blank_comma d).

Lemma run_cons st c r : run_reader d st (String c r) =
  match react d st (String c r) c with
  | Goto st => run_reader d st r
  | Emit rec => l ← run_reader d RStart r; Some (rec :: l)
  | Fail => None
  end.
Proof. done. Qed.
Lemma comma_ok : di_comma d <> cQuote /\ di_comma d <> cCR /\ di_comma d <> cLF /\ code (di_comma d) < 128.
Proof. destruct Hu as [H _]. apply bool_decide_eq_true in H. naive_solver. Qed.
Lemma run_quoted fs b g T : run_reader d (RQuoted fs b) (qesc g +:+ String cQuote T) = run_reader d (RQuote fs (b +:+ g)) T.
Proof.
  revert b. induction g as [|c g IH]; intros b.
  - cbn [qesc]; rewrite ?sapp_cons, ?sapp_nil_l. rewrite run_cons. cbn [react]. rewrite decide_True by done. by rewrite sapp_nil.
  - cbn [qesc]. destruct (decide (c = cQuote)) as [->|Hc].
    + rewrite ?sapp_cons, ?sapp_nil_l. rewrite run_cons. cbn [react]. rewrite decide_True by done.
      rewrite run_cons. cbn [react]. rewrite decide_True by done. by rewrite IH, push_app.
    + rewrite ?sapp_cons, ?sapp_nil_l. rewrite run_cons. cbn [react]. rewrite decide_False by done. by rewrite IH, push_app.
Qed.
Lemma run_plain fs b f T : (forall c, has c f = true -> c <> di_comma d /\ c <> cQuote /\ c <> cCR /\ c <> cLF) ->
  run_reader d (RPlain fs b) (f +:+ T) = run_reader d (RPlain fs (b +:+ f)) T.
Proof.
  revert b. induction f as [|c f IH]; intros b H; [by rewrite sapp_nil|].
  rewrite ?sapp_cons, ?sapp_nil_l. rewrite run_cons. cbn [react].
  destruct (H c) as (? & ? & ? & ?). { cbn [has]. by rewrite bool_decide_eq_true_2. }
  rewrite !decide_False by done. rewrite IH, push_app; [done|]. intros x Hx. apply H. cbn [has]. by rewrite Hx, orb_true_r.
Qed.
(** What happens after a field. *)
Definition after (fs : list string) (x : ascii) (T : string) : option (list (list string)) :=
  if decide (x = cLF) then l ← run_reader d RStart T; Some (fs :: l) else run_reader d (RField fs 0) T.
(** The first character is a space only if the field starts with a space. *)
Lemma space_len_app f x T : code x < 128 -> space_len f = 0 -> f <> "" -> space_len (f +:+ String x T) = 0.
Proof.
  intros Hx Hs Hf. destruct f as [|a f]; [done|]. rewrite ?sapp_cons, ?sapp_nil_l. revert Hs. cbn [space_len].
  destruct (decide (9 <= code a <= 13 \/ code a = 32)); [done|]. destruct f as [|b f]; rewrite ?sapp_cons, ?sapp_nil_l.
  - intros _. rewrite decide_False by lia. destruct T; [done|]. by rewrite decide_False by lia.
  - destruct (decide (code a = 194 /\ (code b = 133 \/ code b = 160))); [done|]. destruct f as [|c f]; rewrite ?sapp_cons, ?sapp_nil_l; [|done].
    intros _. by rewrite decide_False by lia.
Qed.
Lemma run_field fs f x T : x = di_comma d \/ x = cLF ->
  run_reader d (RField fs 0) (nfield w f +:+ String x T) = after (fs ++ [if needs_quotes (wd_comma w) f then field_back (wd_crlf w) f else f]) x T.
Proof.
  intros Hx. pose proof comma_ok as (Hc1 & Hc2 & Hc3 & Hc4).
  assert (Hx' : x <> cQuote /\ code x < 128). { destruct Hx as [->| ->]; [done|]. split; [done|]. by compute; lia. }
  unfold nfield, after. destruct (needs_quotes (wd_comma w) f) eqn:E.
  - rewrite ?sapp_cons, ?sapp_nil_l. rewrite run_cons. cbn [react]. unfold at_field. rewrite (decide_False (P:=cQuote = cLF)) by done.
    assert (Es : space_len (String cQuote ((qesc (field_back (wd_crlf w) f) +:+ String cQuote "") +:+ String x T)) = 0).
    { cbn [space_len]. rewrite decide_False by (compute; lia). destruct (_ +:+ String x T) as [|b r]; [done|].
      rewrite decide_False by (intros [H _]; compute in H; lia). destruct r as [|c r]; [done|].
      rewrite decide_False; [done|]. intros [[H _]|[[H _]|[[H _]|[H _]]]]; compute in H; lia. }
    rewrite Es. rewrite (bool_decide_eq_false_2 (0 < 0)) by lia. rewrite andb_false_r, (decide_True (P:=cQuote = cQuote)) by done.
    rewrite sapp_assoc. rewrite ?sapp_cons, ?sapp_nil_l. rewrite run_quoted. rewrite run_cons. cbn [react].
    rewrite (decide_False (P:=x = cQuote)) by naive_solver. rewrite ?sapp_cons, ?sapp_nil_l.
    destruct Hx as [->| ->].
    + rewrite decide_True by done. by rewrite decide_False by done.
    + rewrite (decide_False (P:=cLF = di_comma d)) by done. rewrite decide_True by done. by rewrite decide_True by done.
  - apply needs_quotes_plain in E as (E & _ & Es). destruct f as [|c f].
    + rewrite sapp_nil_l. rewrite run_cons. cbn [react]. unfold at_field. destruct (decide (x = cLF)) as [->|Hl]; [done|].
      destruct Hx as [->|?]; [|done].
      assert (di_trim d && bool_decide (0 < space_len (String (di_comma d) T)) = false) as ->.
      { destruct (di_trim d) eqn:Et; [|done]. cbn [andb]. apply bool_decide_eq_false. pose proof (Hb Et) as H.
        cbn [space_len] in H |- *. destruct (decide (9 <= code (di_comma d) <= 13 \/ code (di_comma d) = 32)); [done|].
        destruct T as [|b r]; [lia|]. rewrite decide_False by lia. destruct r as [|c r]; [lia|]. rewrite decide_False by lia. lia. }
      rewrite decide_False by done. by rewrite decide_True by done.
    + rewrite Hw in E. destruct (E c) as (? & ? & ? & ?). { cbn [has]. by rewrite bool_decide_eq_true_2. }
      rewrite sapp_cons, run_cons. cbn [react]. unfold at_field. rewrite decide_False by done.
      assert (Es' : space_len (String c (f +:+ String x T)) = 0).
      { rewrite <- sapp_cons. apply space_len_app; [apply Hx'|done|done]. }
      rewrite Es', (bool_decide_eq_false_2 (0 < 0)), andb_false_r by lia. rewrite !decide_False by done.
      rewrite run_plain. 2:{ intros y Hy. apply E. cbn [has]. by rewrite Hy, orb_true_r. }
      rewrite run_cons. cbn [react]. rewrite sapp_cons, sapp_nil_l. destruct Hx as [->| ->].
      * rewrite decide_True by done. by rewrite decide_False by done.
      * rewrite (decide_False (P:=cLF = di_comma d)) by done. rewrite decide_True by done. by rewrite decide_True by done.
Qed.
Lemma field_back_plain crlf f : plain_field (wd_comma w) f -> field_back crlf f = f.
Proof.
  intros [H _]. assert (Hr : has cCR f = false). { destruct (has cCR f) eqn:E; [|done]. apply H in E. naive_solver. }
  clear H. destruct crlf; cbn [field_back]; induction f as [|c f IH]; try done;
    cbn [has] in Hr; apply orb_false_iff in Hr as [Hc Hf]; case_bool_decide; try done.
  - cbn [without_cr]. rewrite decide_False by done. by rewrite IH.
  - cbn [merge_crlf]. destruct f as [|y f]; [done|]. rewrite decide_False by naive_solver. by rewrite IH.
Qed.
Lemma run_field' fs f x T : x = di_comma d \/ x = cLF ->
  run_reader d (RField fs 0) (nfield w f +:+ String x T) = after (fs ++ [field_back (wd_crlf w) f]) x T.
Proof.
  intros Hx. rewrite run_field by done. destruct (needs_quotes (wd_comma w) f) eqn:E; [done|].
  apply needs_quotes_plain in E. by rewrite field_back_plain.
Qed.
Lemma run_fields fs r T : r <> [] ->
  run_reader d (RField fs 0) (nfields w r +:+ String cLF T) =
    (l ← run_reader d RStart T; Some ((fs ++ (field_back (wd_crlf w) <$> r)) :: l)).
Proof.
  revert fs. induction r as [|f r IH]; intros fs Hr; [done|]. destruct r as [|f2 r].
  - change (nfields w [f]) with (nfield w f). rewrite run_field' by auto. unfold after. by rewrite decide_True.
  - change (nfields w (f :: f2 :: r)) with (nfield w f +:+ String (wd_comma w) (nfields w (f2 :: r))).
    rewrite sapp_assoc, sapp_cons, Hw. rewrite run_field' by auto. unfold after.
    rewrite decide_False by apply comma_ok. rewrite IH by done. by rewrite <- app_assoc.
Qed.
(** The first byte of a record. *)
Lemma nfields_head r T : r <> [] -> r <> [""] ->
  exists c s, nfields w r +:+ String cLF T = String c s /\ c <> cLF /\
    (Some c = di_comment d -> comment_like (di_comma d) (di_comment d) r).
Proof.
  pose proof comma_ok as (Hc1 & Hc2 & Hc3 & Hc4).
  intros Hr Hr'. destruct r as [|f r]; [done|].
  assert (Hh : exists s, nfields w (f :: r) = nfield w f +:+ s).
  { destruct r; [exists ""; by rewrite sapp_nil|]. by eexists. }
  destruct Hh as [s Hs]. rewrite Hs, sapp_assoc. unfold nfield in *. destruct (needs_quotes (wd_comma w) f) eqn:E.
  - rewrite sapp_cons. eexists _, _. split; [done|]. split; [done|]. intros Hk. destruct Hu as [_ Hu'].
    destruct (Hu' cQuote) as [Hv _]; [done|]. apply bool_decide_eq_true in Hv. naive_solver.
  - apply needs_quotes_plain in E. destruct f as [|c f].
    + destruct r as [|f2 r]; [done|]. change (nfields w ("" :: f2 :: r)) with (nfield w "" +:+ String (wd_comma w) (nfields w (f2 :: r))) in Hs.
      assert (Hs' : s = String (wd_comma w) (nfields w (f2 :: r))) by (symmetry; exact Hs). rewrite Hs', sapp_nil_l, sapp_cons.
      eexists _, _. split; [done|]. rewrite Hw. split; [done|]. intros Hk. destruct Hu as [_ Hu'].
      destruct (Hu' (di_comma d)) as [_ Hv]; done.
    + rewrite sapp_cons. eexists _, _. split; [done|]. destruct E as [E E2]. split.
      { destruct (E c) as (? & ? & ? & ?); [|done]. cbn [has]. by rewrite bool_decide_eq_true_2. }
      intros Hk. exists c, f, r. rewrite <- Hw. done.
Qed.
(** Comments. *)
Lemma run_comment s T : has cLF s = false -> run_reader d RComment (s +:+ String cLF T) = run_reader d RStart T.
Proof.
  induction s as [|c s IH]; intros H.
  - rewrite sapp_nil_l, run_cons. cbn [react]. by rewrite decide_True.
  - cbn [has] in H. apply orb_false_iff in H as [Hc Hf]. case_bool_decide; [done|].
    rewrite sapp_cons, run_cons. cbn [react]. rewrite decide_False by done. by apply IH.
Qed.
Lemma has_qesc c f : c <> cQuote -> has c (qesc f) = has c f.
Proof.
  intros Hc. induction f as [|x f IH]; [done|]. cbn [qesc]. destruct (decide (x = cQuote)) as [->|].
  - cbn [has]. by rewrite (bool_decide_eq_false_2 (cQuote = c)) by done.
  - cbn [has]. by rewrite IH.
Qed.
Lemma has_back crlf f : has cLF f = false -> has cLF (field_back crlf f) = false.
Proof.
  intros H. destruct crlf; cbn [field_back]; induction f as [|c f IH]; try done;
    cbn [has] in H; apply orb_false_iff in H as [Hc Hf]; case_bool_decide; try done.
  - cbn [without_cr]. destruct (decide (c = cCR)); [by apply IH|]. cbn [has]. by rewrite bool_decide_eq_false_2, IH.
  - cbn [merge_crlf]. destruct f as [|y f].
    + cbn [has]. by rewrite bool_decide_eq_false_2.
    + destruct (decide _); [by apply IH|]. cbn [has] in *. by rewrite bool_decide_eq_false_2, IH.
Qed.
Lemma has_nfield f : has cLF f = false -> has cLF (nfield w f) = false.
Proof.
  intros H. unfold nfield. destruct (needs_quotes _ _); [|done]. cbn [has]. rewrite has_app. cbn [has].
  by rewrite has_qesc, has_back.
Qed.
Lemma has_nfields r : one_line r -> has cLF (nfields w r) = false.
Proof.
  induction r as [|f r IH]; [done|]. intros H. destruct r as [|f2 r].
  - apply has_nfield, H. by apply elem_of_list_singleton.
  - change (nfields w (f :: f2 :: r)) with (nfield w f +:+ String (wd_comma w) (nfields w (f2 :: r))).
    rewrite has_app. cbn [has]. rewrite has_nfield, IH.
    + rewrite Hw, bool_decide_eq_false_2 by apply comma_ok. done.
    + intros g Hg. apply H. by right.
    + apply H. left.
Qed.
Lemma run_record r T : (comment_like (di_comma d) (di_comment d) r -> one_line r) ->
  (blank_record r \/ comment_like (di_comma d) (di_comment d) r ->
   run_reader d RStart (nfields w r +:+ String cLF T) = run_reader d RStart T) /\
  (~ (blank_record r \/ comment_like (di_comma d) (di_comment d) r) ->
   run_reader d RStart (nfields w r +:+ String cLF T) =
     (l ← run_reader d RStart T; Some ((field_back (wd_crlf w) <$> r) :: l))).
Proof.
  intros Hc.
  assert (Hlf : Some cLF <> di_comment d).
  { intros Hk. destruct Hu as [_ Hu']. destruct (Hu' cLF) as [Hv _]; [done|]. apply bool_decide_eq_true in Hv. naive_solver. }
  split.
  - intros [[->| ->]|Hk].
    + change (nfields w []) with "". rewrite sapp_nil_l, run_cons. cbn [react]. rewrite decide_False by done. by rewrite decide_True.
    + change (nfields w [""]) with "". rewrite sapp_nil_l, run_cons. cbn [react]. rewrite decide_False by done. by rewrite decide_True.
    + pose proof (has_nfields r (Hc Hk)) as Hn. destruct Hk as (k & f & fs & Hk & -> & Hp).
      assert (Hq : needs_quotes (wd_comma w) (String k f) = false) by (rewrite Hw; by apply needs_quotes_plain).
      assert (exists s, nfields w (String k f :: fs) = String k s) as [s Hs].
      { destruct fs as [|f2 fs].
        - change (nfields w [String k f]) with (nfield w (String k f)). unfold nfield. rewrite Hq. by eexists.
        - change (nfields w (String k f :: f2 :: fs)) with (nfield w (String k f) +:+ String (wd_comma w) (nfields w (f2 :: fs))).
          unfold nfield at 1. rewrite Hq, sapp_cons. by eexists. }
      rewrite Hs in Hn |- *. rewrite sapp_cons, run_cons. cbn [react]. rewrite decide_True by done.
      cbn [has] in Hn. apply orb_false_iff in Hn as [_ Hn]. by apply run_comment.
  - intros Hn. assert (Hr : r <> [] /\ r <> [""]) by (unfold blank_record in Hn; naive_solver). destruct Hr as [Hr1 Hr2].
    destruct (nfields_head r T Hr1 Hr2) as (c & s & Hs & Hl & Hk).
    rewrite <- (app_nil_l (field_back (wd_crlf w) <$> r)). rewrite <- run_fields by done. rewrite Hs, !run_cons. cbn [react].
    rewrite decide_False by (intros E; apply Hn; right; by apply Hk). by rewrite decide_False by done.
Qed.
Global Instance comment_like_dec r : Decision (comment_like (di_comma d) (di_comment d) r).
Proof.
  destruct (di_comment d) as [k|] eqn:E; [|right; intros (k & f & fs & ? & _); done].
  destruct r as [|f fs]; [right; intros (k' & f & fs & _ & ? & _); done|].
  destruct f as [|c f]; [right; intros (k' & f & fs' & _ & ? & _); done|].
  destruct (decide (c = k)) as [->|]; [|right; intros (k' & f' & fs' & ? & ? & _); congruence].
  destruct (needs_quotes (di_comma d) (String k f)) eqn:Eq.
  - right. intros (k' & f' & fs' & _ & [= -> -> ->] & H). apply needs_quotes_plain in H. congruence.
  - left. exists k, f, fs. apply needs_quotes_plain in Eq. done.
Defined.
Global Instance blank_dec r : Decision (blank_record r).
Proof. unfold blank_record. apply _. Defined.
Lemma run_records recs :
  Forall (fun r => comment_like (di_comma d) (di_comment d) r -> one_line r) recs ->
  run_reader d RStart (nrecords w recs) =
    Some (fmap (M:=list) (field_back (wd_crlf w)) <$>
          filter (fun r => ~ (blank_record r \/ comment_like (di_comma d) (di_comment d) r)) recs).
Proof.
  induction 1 as [|r recs Hr _ IH]; [done|]. cbn [nrecords].
  destruct (run_record r (nrecords w recs) Hr) as [H1 H2].
  destruct (decide (blank_record r \/ comment_like (di_comma d) (di_comment d) r)) as [Hs|Hs].
  - rewrite H1, IH by done. rewrite filter_cons_False; [done|]. by intros ?.
  - rewrite H2, IH by done. rewrite filter_cons_True by done. done.
Qed.
End reader.
