(** The text of CSV files: C85, C86, C49. *)
From Verif Require Import M_CsvText Spec_CsvText P_TextMain P_CsvMain P_Check.

(** C85 What is read from a text that was written: the records that are neither
    blank nor like a comment, or an error if their lengths differ. *)
Theorem C85_read_back_partial : forall (w : wdialect) (d : dialect) (recs : list (list string)) (text : string),
  wd_comma w = di_comma d -> usable d -> no_blank_comma d ->
  (* no record that looks like a comment goes over several lines *)
  (forall r, r ∈ recs -> comment_like (di_comma d) (di_comment d) r -> one_line r) ->
  csv_text w recs = Some text ->
  (one_width (come_back w d recs) -> csv_records d text = Some (come_back w d recs)) /\
  (~ one_width (come_back w d recs) -> csv_records d text = None).
Proof. exact C85_read_back_partial_main. Qed.
Print Assumptions C85_read_back_partial.
(** When everything is read back. *)
Theorem C85_identity : forall (w : wdialect) (d : dialect) (recs : list (list string)) (text : string),
  wd_comma w = di_comma d -> usable d -> no_blank_comma d ->
  (forall r, r ∈ recs -> comment_like (di_comma d) (di_comment d) r -> one_line r) ->
  csv_text w recs = Some text ->
  csv_records d text = Some recs <->
    one_width recs /\ forall r, r ∈ recs -> r <> [] /\ r <> [""] /\ ~ comment_like (di_comma d) (di_comment d) r /\
      forall f, f ∈ r -> field_back (wd_crlf w) f = f.
Proof. exact C85_identity_main. Qed.
Print Assumptions C85_identity.
Theorem C85_unchanged_fields : forall f : string, (field_back true f = f <-> has cCR f = false) /\
  (has cCR f = false -> field_back false f = f) /\ (has cLF f = false -> field_back false f = f).
Proof. exact field_back_id_main. Qed.
Print Assumptions C85_unchanged_fields.
Example C85_case : csv_text unix c85_recs =
    Some (dq +:+ "a,b" +:+ dq +:+ "," +:+ dq +:+ " c" +:+ dq +:+ lf +:+ dq +:+ "x" +:+ lf +:+ "y" +:+ dq +:+ "," +:+ dq +:+ dq +:+ dq +:+ dq +:+ lf +:+ ",z" +:+ lf) /\
  usable plain_d /\ no_blank_comma plain_d /\ (csv_text unix c85_recs ≫= csv_records plain_d) = Some c85_recs /\
  (csv_text dos c85_recs ≫= csv_records plain_d) = Some c85_recs /\
  (* blank lines and comments disappear *)
  (csv_text unix [["a"]; ["#b"]; [""]; ["c"]] ≫= csv_records hash_d) = Some [["a"]; ["c"]].
Proof. exact C85_check_main. Qed.
Theorem C85_line_end_refuted : exists recs : list (list string), recs = [["a"]; ["x" +:+ crlf_s +:+ "y"]] /\
  (csv_text unix recs ≫= csv_records plain_d) = Some [["a"]; ["x" +:+ lf +:+ "y"]].
Proof. exact C85_line_end_refuted_main. Qed.
Print Assumptions C85_line_end_refuted.
Theorem C85_blank_refuted : exists recs : list (list string), recs = [["a"]; [""]; ["x"]] /\
  (csv_text unix recs ≫= csv_records plain_d) = Some [["a"]; ["x"]].
Proof. exact C85_blank_refuted_main. Qed.
Print Assumptions C85_blank_refuted.
Theorem C85_comment_refuted : exists recs : list (list string), recs = [["a"; "b"]; ["#1"; "2"]] /\
  (csv_text unix recs ≫= csv_records hash_d) = Some [["a"; "b"]].
Proof. exact C85_comment_refuted_main. Qed.
Print Assumptions C85_comment_refuted.
Theorem C85_comment_lines_refuted : exists recs : list (list string), recs = [["a"; "b"]; ["#1"; "x" +:+ lf +:+ "u,v"]] /\
  (csv_text unix recs ≫= csv_records (Dialect comma (Some "#"%char) true false)) = Some [["a"; "b"]; ["u"; "v" +:+ dq]] /\
  (csv_text unix recs ≫= csv_records hash_d) = None.
Proof. exact C85_comment_lines_refuted_main. Qed.
Print Assumptions C85_comment_lines_refuted.
Theorem C85_blank_comma_refuted : exists recs : list (list string), recs = [["a"; "b"]; [""; "x"]] /\
  (csv_text (WDialect tab false) recs ≫= csv_records (Dialect tab None false true)) = None.
Proof. exact C85_blank_comma_refuted_main. Qed.
Print Assumptions C85_blank_comma_refuted.

(** C86 FromCSV on any text: exactly when it returns. Otherwise a worker panics
    or the call waits for ever. *)
Theorem C86_returns : forall (crt : CsvRT) (rt : GoRT), forall (dl : dialect) (o : rspec) (text : string) (header : list string) (recs : list (list string))
    (rnd : nat -> nat) (keys : list string) (h : heap) (q : list string) (w : Z) (m : nat) (s : pool unit),
  csv_open dl o text = Some (header, recs) ->
  NoDup keys -> (forall c, c ∈ keys <-> c ∈ header /\ c ∉ rs_exclude o) ->
  csv_queue o rnd keys = (q, w) ->
  steps false (length keys) (csv_job o header recs) m (pool_init q w h) s ->
  (* a header from the file fits the records *)
  (rs_header o = [] -> forall c, c ∈ keys -> exists l, cells_of header recs c l) /\
  (* FromCSV returns if every column that is wanted has a name and cells *)
  ("" ∉ keys -> (forall c, c ∈ keys -> exists l, cells_of header recs c l) ->
     p_crash s = false /\ m <= 5 * length keys + Z.to_nat w + 1 /\
     (~ closed (length keys) s -> exists s', step false (length keys) (csv_job o header recs) s s') /\
     (closed (length keys) s ->
       exists r h1, from_csv o header recs (w_log <$> p_ws s) h = Ok (r, h1) /\
       forall ord, ord ≡ₚ map_to_list (mp h1 (r_maps r)) ->
       exists d h2, to_dataframe_ord ord r h1 = Ok (d, h2) /\ wf h2 d /\ preserved h h2 /\
         t_rows (abs h2 d) = (if decide (keys = []) then 0 else length recs) /\
         forall c l, c ∈ keys -> cells_of header recs c l ->
           exists k vs, t_cols (abs h2 d) !! (k, c) = Some vs /\ reads_as (rs_missing o) k l vs /\
             forall k' vs', t_cols (abs h2 d) !! (k', c) = Some vs' -> k' = k)) /\
  (* and only then *)
  ("" ∈ keys \/ (exists c, c ∈ keys /\ ~ exists l, cells_of header recs c l) -> ~ closed (length keys) s).
Proof. intros crt rt. exact C86_returns_main. Qed.
Print Assumptions C86_returns.
Section cases.
Local Existing Instance ex_rt.
Local Existing Instance ex_crt.
Example C86_case : csv_open hash_d ro0 c86_good = Some (["b"; "s"], [["true"; "u" +:+ lf +:+ "v"]; ["0"; ""]]) /\
  native_col ro0 ["b"; "s"] [["true"; "u" +:+ lf +:+ "v"]; ["0"; ""]] "b" = Ok (KBool, [VBool true; VBool false]) /\
  native_col ro0 ["b"; "s"] [["true"; "u" +:+ lf +:+ "v"]; ["0"; ""]] "s" = Ok (KObj, [VObj (OStr ("u" +:+ lf +:+ "v")); VObj ONil]).
Proof. exact C86_check_main. Qed.
Theorem C86_short_record_panics : exists (o : rspec) (text : string) (header : list string) (recs : list (list string)) (m : nat) (s : pool unit),
  csv_open plain_d o text = Some (header, recs) /\
  (let '(q, w) := csv_queue o id ["c"; "b"; "a"] in steps false 3 (csv_job o header recs) m (pool_init q w heap0) s) /\ p_crash s = true.
Proof. exact C86_short_record_panics_main. Qed.
Print Assumptions C86_short_record_panics.
Theorem C86_unnamed_column_hangs : exists (text : string) (header : list string) (recs : list (list string)),
  csv_open plain_d ro0 text = Some (header, recs) /\
  forall (rnd : nat -> nat) (h : heap) (q : list string) (w : Z) (m : nat) (s : pool unit), csv_queue ro0 rnd header = (q, w) ->
    steps false (length header) (csv_job ro0 header recs) m (pool_init q w h) s -> ~ closed (length header) s.
Proof. exact C86_unnamed_column_hangs_main. Qed.
Print Assumptions C86_unnamed_column_hangs.
End cases.

(** C49 The round trip through the text of the file. *)
Theorem C49_text : forall (crt : CsvRT) (rt : GoRT), forall (order : nat -> gset string -> list string) (flush : nat -> bool) (wo : wspec) (ro : rspec)
    (wd : wdialect) (dl : dialect) (h : heap) (d : dframe) (file : list (list string)) (text : string) (h1 : heap) (logs : list (list string)),
  wf h d -> perm_order order -> (forall j, flush j = true) -> d_viewed d = false \/ ws_order wo = true ->
  (forall c, c ∈ t_strs (abs h d) <-> is_Some (t_cols (abs h d) !! (KObj, c))) ->
  (forall k k' c, is_Some (t_cols (abs h d) !! (k, c)) -> is_Some (t_cols (abs h d) !! (k', c)) -> k = k') ->
  (forall k vs, t_cols (abs h d) !! k = Some vs -> numbers_ok vs) ->
  default_types ro -> rs_header ro = [] -> rs_exclude ro = [] ->
  to_1csv order flush wo d h = Ok (file, false, h1) ->
  csv_text wd file = Some text ->
  (* the same delimiter for writing and reading *)
  wd_comma wd = di_comma dl -> usable dl -> no_blank_comma dl ->
  (* no line is blank or like a comment, and no field has a line end that changes *)
  (forall r, r ∈ file -> ~ blank_record r /\ ~ comment_like (di_comma dl) (di_comment dl) r /\
     forall f, f ∈ r -> field_back (wd_crlf wd) f = f) ->
  exists header recs, csv_open dl ro text = Some (header, recs) /\
  (forall c, c ∈ header <-> exists k, is_Some (t_cols (abs h d) !! (k, c))) /\
  (concat logs ≡ₚ header ->
   exists r h2, from_csv ro header recs logs h1 = Ok (r, h2) /\
   forall ord, ord ≡ₚ map_to_list (mp h2 (r_maps r)) ->
   exists d' h3, to_dataframe_ord ord r h2 = Ok (d', h3) /\ wf h3 d' /\ preserved h h3 /\
     t_rows (abs h3 d') = t_rows (abs h d) /\
     (forall c, (exists k, is_Some (t_cols (abs h3 d') !! (k, c))) <-> exists k, is_Some (t_cols (abs h d) !! (k, c))) /\
     (forall k c vs, t_cols (abs h d) !! (k, c) = Some vs ->
        t_cols (abs h3 d') !! (k, c) = Some vs <-> survives (ws_marker wo) (rs_missing ro) k vs) /\
     (t_cols (abs h3 d') = t_cols (abs h d) /\ t_strs (abs h3 d') = t_strs (abs h d) <->
        forall k vs, t_cols (abs h d) !! k = Some vs -> survives (ws_marker wo) (rs_missing ro) k.1 vs)).
Proof. intros crt rt. exact C49_text_main. Qed.
Print Assumptions C49_text.
Section cases2.
Local Existing Instance ex_rt.
Local Existing Instance ex_crt.
Example C49_text_case : csv_text dos c49_file = Some c49_text /\ csv_open plain_d ro0 c49_text = csv_split ro0 c49_file /\
  (forall r, r ∈ c49_file -> ~ blank_record r /\ ~ comment_like (di_comma plain_d) (di_comment plain_d) r /\ forall f, f ∈ r -> field_back true f = f).
Proof. exact C49_text_check_main. Qed.
End cases2.
