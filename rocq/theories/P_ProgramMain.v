(** The program examples/linreg.go: C92. *)
From Coq Require Import Reals Psatz.
From Flocq Require Import Core BinarySingleNaN.
From Verif Require Import M_Program M_Strconv.
From Verif Require Import P_Exec.
From stdpp Require Import strings pretty list.
From Verif Require Import P_CsvMain P_TextMain Spec_CsvText P_Strconv P_Strconv4 P_View2 P_Auto6 P_ExampleMain P_JsonMain Spec_Strconv Spec_Json Spec_Program M_Program P_Check.
Local Open Scope nat_scope.
Local Existing Instance go_crt.
Local Existing Instance go_jrt.

(** ** Numbers that are read are of type float64 *)
Lemma scaled_f64 b s D k : is_f64 (M_Strconv.scaled b s D k).
Proof. destruct D as [|p|p]; [done| |done]. by destruct (scaled_spec b s (Zpos p) k eq_refl) as [H _]. Qed.
Lemma in_range_f64 x y : in_range x = Some y -> is_f64 x -> is_f64 y.
Proof. unfold in_range. destruct x; intros [= <-] H; done. Qed.
Lemma parse_f64_f64 s x : parse_f64 s = Some x -> is_f64 x.
Proof.
  unfold parse_f64. destruct (special s) as [y|] eqn:E.
  { intros [= <-]. revert E. unfold special. cbv zeta. repeat case_decide; intros [= <-]; done. }
  destruct (strip_sign s) as [neg t]. destruct (strip_hex t) as [hex u].
  destruct (read_mant hex _ u) as [[[v f dot [] us] r]|]; [|done..].
  destruct (exp_part hex r) as [[e us']|]; [|done]. destruct (_ && _); [done|].
  intros H. apply in_range_f64 in H; [done|]. destruct hex; apply scaled_f64.
Qed.

(** ** What is loaded *)
Lemma blank_cell_markers s : s ∈ [""; " "; "NA"; "-"] <-> blank_cell s.
Proof. unfold blank_cell. rewrite !elem_of_cons, elem_of_nil. tauto. Qed.
Lemma numeric_pure l : numeric l <-> forallb (pure_float [""; " "; "NA"; "-"]) l = true.
Proof.
  rewrite forallb_forall. unfold numeric, pure_float. split.
  - intros H s Hs. rewrite <- elem_of_list_In in Hs. apply orb_true_iff. rewrite !bool_decide_eq_true, blank_cell_markers.
    destruct (decide (blank_cell s)); [by left|right]. by apply H.
  - intros H s Hs Hb. rewrite elem_of_list_In in Hs. specialize (H s Hs). apply orb_true_iff in H.
    rewrite !bool_decide_eq_true, blank_cell_markers in H. by destruct H.
Qed.
Lemma pure_kind_linreg cpu ex l :
  (numeric l -> pure_kind (linreg_spec cpu ex) l = KFloat) /\ (~ numeric l -> pure_kind (linreg_spec cpu ex) l = KObj).
Proof.
  rewrite numeric_pure. unfold pure_kind. cbn [linreg_spec rs_binary_float rs_int_float rs_missing negb andb].
  destruct (forallb _ l); [done|]. split; [done|]. by intros.
Qed.
Lemma numeric_vals l : numeric l -> pure_vals [""; " "; "NA"; "-"] KFloat l = (number_in <$> l).
Proof.
  intros H. simpl. apply list_fmap_ext. intros i s Hs. apply elem_of_list_lookup_2 in Hs. unfold number_in.
  destruct (decide (blank_cell s)) as [Hb|Hb].
  - rewrite bool_decide_true by (by apply blank_cell_markers). done.
  - rewrite bool_decide_false by (by rewrite blank_cell_markers). destruct (H s Hs Hb) as [x Hx].
    change (parse_float s) with (parse_f64 s). by rewrite Hx.
Qed.
Lemma text_vals l : pure_vals [""; " "; "NA"; "-"] KObj l = (text_in <$> l).
Proof.
  simpl. apply list_fmap_ext. intros i s _. unfold text_in. destruct (decide (blank_cell s)) as [Hb|Hb].
  - by rewrite bool_decide_true by (by apply blank_cell_markers).
  - by rewrite bool_decide_false by (by rewrite blank_cell_markers).
Qed.
Global Instance numeric_dec l : Decision (numeric l).
Proof. destruct (forallb (pure_float [""; " "; "NA"; "-"]) l) eqn:E; [left|right]; rewrite numeric_pure, E; done. Defined.

Section program.
Context {rt : GoRT} (bl : blas f64_arith).
Context (order : gset string -> list string) (Ho : forall X, order X ≡ₚ elements X).
Context (ord : string -> bool -> gset Z -> list Z) (Hord : forall c b X, ord c b X ≡ₚ elements X).
Context (mord : gmap key slice -> list (key * slice)) (Hm : forall m, mord m ≡ₚ map_to_list m).

Lemma to_dataframe_inds o r h d h' : to_dataframe_ord o r h = Ok (d, h') -> NoDup (inds d).
Proof.
  unfold to_dataframe_ord. rewrite (bind_eq _ _ h (mp h (r_maps r)) h) by done. cbv zeta.
  case_decide; [|done]. unfold bind, make_mask, bind. simpl. intros [= <- _].
  unfold inds. simpl. unfold ilist. simpl. rewrite take_ge by done. apply NoDup_seq.
Qed.

Lemma load cpu ex dl text header recs logs h :
  csv_open dl (linreg_spec cpu ex) text = Some (header, recs) ->
  (exists c, c ∈ header /\ c ∉ ex) ->
  concat logs ≡ₚ elements (csv_names (linreg_spec cpu ex) header) ->
  exists r h1 d h2, from_csv (linreg_spec cpu ex) header recs logs h = Ok (r, h1) /\
    to_dataframe_ord (mord (mp h1 (r_maps r))) r h1 = Ok (d, h2) /\ wf h2 d /\ preserved h h2 /\ NoDup (inds d) /\
    loaded ex header recs (abs h2 d) /\ t_cpu (abs h2 d) = max_cpu cpu.
Proof.
  intros Eo [c0 [Hc0 Hc0']] Hlog. destruct (csv_open_wide dl (linreg_spec cpu ex) text header recs eq_refl Eo) as [_ Hw].
  assert (HW : wide header recs) by (apply Forall_forall; intros r Hr; by rewrite (Hw r Hr)).
  destruct (from_csv_table (linreg_spec cpu ex) header recs logs h HW Hlog) as (r & h1 & E & HT).
  destruct (HT (mord (mp h1 (r_maps r))) (Hm _)) as (d & h2 & cols & strs & E2 & W2 & X2 & Ha & Hcols & Hstr).
  exists r, h1, d, h2. split; [done|]. split; [done|]. split; [done|]. split; [by apply ext_preserved|].
  split; [by eapply to_dataframe_inds|]. rewrite Ha. cbn [t_cpu linreg_spec rs_cpu]. split; [|done].
  split; [|split]; cbn [t_rows t_cols t_strs].
  - rewrite decide_False; [done|]. intros Hz. assert (H : c0 ∈ csv_names (linreg_spec cpu ex) header) by (by apply elem_of_csv_names).
    rewrite Hz in H. by apply elem_of_empty in H.
  - intros k c vs. rewrite Hcols, elem_of_csv_names. unfold Vof, Kof. cbn [rs_missing linreg_spec rs_exclude]. split.
    + intros ([H1 H2] & <- & <-). exists (cell_list header recs c). split; [split; [done|]; split; [done|]; by apply cell_list_cells|].
      destruct (pure_kind_linreg cpu ex (cell_list header recs c)) as [K1 K2].
      destruct (decide (numeric (cell_list header recs c))) as [Hn|Hn].
      * left. rewrite (K1 Hn). split; [done|]. split; [done|]. by apply numeric_vals.
      * right. rewrite (K2 Hn). split; [done|]. split; [done|]. apply text_vals.
    + intros (l & (H1 & H2 & H3) & HC). split; [done|].
      rewrite (cells_of_fun _ _ _ _ _ (cell_list_cells header recs c H1 HW) H3).
      destruct (pure_kind_linreg cpu ex l) as [K1 K2]. destruct HC as [(-> & Hn & ->)|(-> & Hn & ->)].
      * rewrite (K1 Hn). split; [done|]. by apply numeric_vals.
      * rewrite (K2 Hn). split; [done|]. apply text_vals.
  - intros c. rewrite Hstr. split.
    + intros [H1 H2]. eexists. by apply Hcols.
    + intros [vs H%Hcols]. tauto.
Qed.

Section loaded.
Context (ex header : list string) (recs : list (list string)) (t : table) (HL : loaded ex header recs t).
Lemma loaded_kind k c : is_Some (t_cols t !! (k, c)) -> k = KFloat \/ k = KObj.
Proof. destruct HL as (_ & HC & _). intros [vs H]. apply HC in H as (l & _ & [H|H]); [left|right]; by destruct H. Qed.
Lemma loaded_unique : unique_names t.
Proof.
  destruct HL as (_ & HC & _). intros k1 k2 c [v1 H1] [v2 H2]. apply HC in H1 as (l1 & (_ & _ & W1) & K1). apply HC in H2 as (l2 & (_ & _ & W2) & K2).
  rewrite (cells_of_fun _ _ _ _ _ W2 W1) in *. destruct K1 as [(-> & N1 & _)|(-> & N1 & _)], K2 as [(-> & N2 & _)|(-> & N2 & _)]; done.
Qed.
Lemma loaded_col c : c ∈ header -> c ∉ ex -> (exists l, cells_of header recs c l) -> exists k, is_Some (t_cols t !! (k, c)).
Proof.
  destruct HL as (_ & HC & _). intros H1 H2 [l Hl]. destruct (decide (numeric l)) as [Hn|Hn].
  - exists KFloat. eexists. apply HC. exists l. split; [done|]. by left.
  - exists KObj. eexists. apply HC. exists l. split; [done|]. by right.
Qed.
Lemma loaded_name k c : is_Some (t_cols t !! (k, c)) -> c ∈ header /\ c ∉ ex.
Proof. destruct HL as (_ & HC & _). intros [vs H]. apply HC in H as (l & (? & ? & _) & _). done. Qed.
Lemma loaded_float c l : wanted ex header recs c l -> is_Some (t_cols t !! (KFloat, c)) <-> numeric l.
Proof.
  destruct HL as (_ & HC & _). intros W. split.
  - intros [vs H]. apply HC in H as (l' & (_ & _ & W') & [(_ & Hn & _)|(? & _)]); [|done]. destruct W as (_ & _ & W). by rewrite (cells_of_fun _ _ _ _ _ W W').
  - intros Hn. eexists. apply HC. exists l. split; [done|]. by left.
Qed.
Lemma loaded_floats c l : wanted ex header recs c l -> numeric l ->
  t_floats t c = (fun s => if decide (blank_cell s) then S754_nan else default S754_nan (parse_f64 s)) <$> l.
Proof.
  destruct HL as (_ & HC & _). intros W Hn. unfold t_floats. assert (H : t_cols t !! (KFloat, c) = Some (number_in <$> l)).
  { apply HC. exists l. split; [done|]. by left. }
  rewrite H. change (default [] (Some (number_in <$> l))) with (number_in <$> l). rewrite <- list_fmap_compose. apply list_fmap_ext. done.
Qed.
Lemma loaded_good : good_floats t.
Proof.
  intros c. unfold t_floats. destruct (t_cols t !! (KFloat, c)) as [vs|] eqn:E; [|by constructor].
  destruct HL as (_ & HC & _). apply HC in E as (l & _ & [(_ & _ & ->)|(? & _)]); [|done].
  change (default [] (Some (number_in <$> l))) with (number_in <$> l).
  rewrite <- list_fmap_compose. apply Forall_fmap, Forall_forall. intros s _. cbn. destruct (decide _); [done|].
  destruct (parse_f64 s) as [x|] eqn:Ex; [|done]. by eapply parse_f64_f64.
Qed.
Lemma loaded_names : (forall c, c ∈ header -> c ∉ ex -> utf8 c) -> good_names t.
Proof.
  intros Hu. split.
  - intros k c H. destruct (loaded_name _ _ H). by apply Hu.
  - intros c z Hz. exfalso. unfold t_ints in Hz. destruct (t_cols t !! (KInt, c)) as [vs|] eqn:E; [|by apply elem_of_nil in Hz].
    destruct (loaded_kind KInt c) as [?|?]; [by eexists|done..].
Qed.
Lemma loaded_categorical c : categorical t c <-> c ∈ t_strs t.
Proof.
  unfold categorical. case_decide as Hz; [|done]. split.
  - intros H. by destruct (loaded_kind _ _ H).
  - rewrite Hz. by intros ?%elem_of_empty.
Qed.
Lemma loaded_strs c : c ∈ t_strs t <-> exists l, wanted ex header recs c l /\ ~ numeric l.
Proof.
  destruct HL as (_ & HC & HS). rewrite HS. split.
  - intros [vs H]. apply HC in H as (l & W & [(? & _)|(_ & Hn & _)]); [done|]. by exists l.
  - intros (l & W & Hn). eexists. apply HC. exists l. split; [done|]. by right.
Qed.
Lemma loaded_strings c : is_Some (t_cols t !! (KFloat, c)) -> strings_ok t.
Proof.
  intros Hf. destruct HL as (_ & HC & HS). split; [by intros c' ?%HS|]. right. exists (KFloat, c). split; [done|]. cbn.
  rewrite HS. intros Ho'. by pose proof (loaded_unique _ _ _ Hf Ho').
Qed.
End loaded.

Lemma C92_program_main : forall (dl : dialect) (text : string) (header : list string) (recs : list (list string)) (cpu : Z) (exclude : list string)
    (crnd : nat -> nat) (keys q : list string) (wk : Z) (steps_done : nat) (s : pool unit)
    (rnd : nat -> nat) (norm : nat -> f64) (rnds : Z -> nat -> nat) (ratio : f64) (flag : bool) (target : string) (prm : lr_params f64_arith) (h : heap),
  let o := linreg_spec cpu exclude in
  blas_f64 bl -> params_f64 prm -> (forall i, is_f64 (norm i)) -> is_f64 ratio -> f64_isnan ratio = false ->
  csv_open dl o text = Some (header, recs) -> (Z.of_nat (length recs) <= 2 ^ 53)%Z ->
  NoDup keys -> (forall c, c ∈ keys <-> c ∈ header /\ c ∉ exclude) -> "" ∉ keys -> (forall c, c ∈ keys -> utf8 c) ->
  (exists l, wanted exclude header recs target l /\ numeric l) ->
  (exists c l, c <> target /\ wanted exclude header recs c l /\ numeric l) ->
  target <> "_target" -> target <> "y_pred" -> "_target" ∉ keys ->
  (forall c c' l l' i, wanted exclude header recs c l -> ~ numeric l -> wanted exclude header recs c' l' -> ~ numeric l' ->
     c' <> onehot_name c i /\ c' <> missing_name c) ->
  flag = true \/ (forall c l, wanted exclude header recs c l -> numeric l) ->
  csv_queue o crnd keys = (q, wk) ->
  steps false (length keys) (csv_job o header recs) steps_done (pool_init q wk h) s ->
  p_crash s = false /\ (~ closed (length keys) s -> exists s', step false (length keys) (csv_job o header recs) s s') /\
  steps_done <= 5 * length keys + Z.to_nat wk + 1 /\
  (closed (length keys) s ->
   exists t, loaded exclude header recs t /\
   let opt := AutoOpt flag flag [target] in
   let m := test_rows (length recs) ratio in
   let n := length recs - m in
   match program bl order ord mord dl text cpu exclude (w_log <$> p_ws s) rnd norm rnds ratio flag flag target prm h with
   | Ok ((e, w), h') => ~ bad_parameters t ratio prm n m /\ preserved h h' /\ wf h' w /\
       exists q r p reg a b ks t1 t2, q ≡ₚ seq 0 (length recs) /\ r ≡ₚ seq 0 m /\
         learned bl norm opt prm target (t_select (take n q) t) t1 p a b reg /\ auto_nums finite p /\ linreg_nums finite reg /\
         prepared_as once p (t_select (drop n q) t) t2 /\ num_keys t2 (lr_features reg) = Some ks /\
         abs h' w = t_insert (KFloat, "y_pred") (VFloat <$> predictions bl a b reg ks (t_select r t2)) (t_select r t2) /\
         e = mae_of f64_arith (pick (pick r (drop n q)) (t_floats t target)) (predictions bl a b reg ks (t_select r t2))
   | Panic => bad_parameters t ratio prm n m \/
       exists q p reg a b t1, q ≡ₚ seq 0 (length recs) /\ learned bl norm opt prm target (t_select (take n q) t) t1 p a b reg /\
         ~ (auto_nums finite p /\ linreg_nums finite reg)
   end).
Proof.
  intros dl text header recs cpu exclude crnd keys q wk sd s rnd norm rnds ratio flag target prm h o
    Hbl Hprm Hnorm Hr Hrn Eo Hsz Hnd Hk He Hu (lt & Wt & Nt) (cx & lx & Hcx & Wx & Nx) Ht1 Ht2 Hut Hcl Hflag Eq Hs.
  destruct (C86_returns_main dl o text header recs crnd keys h q wk sd s Eo Hnd Hk Eq Hs) as (R1 & R2 & _).
  destruct (R2 He (R1 eq_refl)) as (R3 & R4 & R5 & _). split; [done|]. split; [done|]. split; [done|]. intros Hclosed.
  assert (Hlog : concat (w_log <$> p_ws s) ≡ₚ elements (csv_names o header)).
  { destruct (C41_every_key_once_partial_main unit false (csv_job o header recs) crnd keys (max_cpu (rs_cpu o)) h q wk sd s He Eq Hs) as (_ & _ & H3 & _).
    destruct (H3 Hclosed) as (_ & Hlog & _). rewrite Hlog. apply NoDup_Permutation; [done|apply NoDup_elements|].
    intros c. by rewrite Hk, elem_of_elements, elem_of_csv_names. }
  destruct (load cpu exclude dl text header recs (w_log <$> p_ws s) h Eo) as (r & h1 & d & h2 & E1 & E2 & W & P & N & L & _);
    [exists target; destruct Wt as (? & ? & _); done|exact Hlog|].
  assert (Hrows : t_rows (abs h2 d) = length recs) by apply L.
  assert (Hft : is_Some (t_cols (abs h2 d) !! (KFloat, target))) by (by apply (loaded_float _ _ _ _ L target lt Wt)).
  assert (Hfx : is_Some (t_cols (abs h2 d) !! (KFloat, cx))) by (by apply (loaded_float _ _ _ _ L cx lx Wx)).
  assert (Hnone : forall k, t_cols (abs h2 d) !! (k, "_target") = None).
  { intros k. destruct (t_cols (abs h2 d) !! (k, "_target")) eqn:E; [|done]. destruct Hut. apply Hk. eapply loaded_name; [done|by rewrite E]. }
  exists (abs h2 d). split; [done|]. cbv zeta.
  assert (Eprog : program bl order ord mord dl text cpu exclude (w_log <$> p_ws s) rnd norm rnds ratio flag flag target prm h =
    example bl order ord rnd norm rnds ratio flag flag target prm d h2).
  { unfold program. fold o. rewrite Eo. rewrite (bind_eq _ _ _ _ _ E1). rewrite (bind_eq _ _ h1 (mp h1 (r_maps r)) h1) by done.
    by rewrite (bind_eq _ _ _ _ _ E2). }
  rewrite Eprog.
  pose proof (C90_example_partial_main bl order Ho ord Hord rnd norm rnds ratio flag target prm h2 d json_exact Hbl Hprm Hnorm Hr Hrn W N) as HE.
  cbv zeta in HE. rewrite Hrows in HE. change (num_rows d) with (t_rows (abs h2 d)) in HE. rewrite Hrows in HE. specialize (HE Hsz).
  specialize (HE (loaded_unique _ _ _ _ L) (loaded_strings _ _ _ _ L _ Hft)).
  assert (Hnc : no_clash (abs h2 d)).
  { intros c c' i Hc Hc'. apply (loaded_categorical _ _ _ _ L), (loaded_strs _ _ _ _ L) in Hc as (l & Wl & Nl).
    apply (loaded_categorical _ _ _ _ L), (loaded_strs _ _ _ _ L) in Hc' as (l' & Wl' & Nl'). by apply (Hcl c c' l l' i). }
  specialize (HE Hnc (loaded_names _ _ _ _ L ltac:(intros; by apply Hu, Hk)) (loaded_good _ _ _ _ L) Hft (ex_intro _ cx (conj Hcx Hfx)) Ht1 Ht2 (Hnone _) (Hnone _)).
  assert (Hfl : flag = true \/ (forall c, ~ categorical (abs h2 d) c)).
  { destruct Hflag as [?|Hf]; [by left|right]. intros c Hc. apply (loaded_categorical _ _ _ _ L), (loaded_strs _ _ _ _ L) in Hc as (l & Wl & Nl). apply Nl. by eapply Hf. }
  specialize (HE Hfl). revert HE. destruct (example _ _ _ _ _ _ _ _ _ _ _ d h2) as [[[e w] h']|]; [|done].
  intros (B1 & B2 & B3 & B4). split; [done|]. split; [by eapply preserved_trans|]. split; done.
Qed.
End program.

(** Reading ends under every schedule that goes on. *)
Lemma C92_reads_main : forall (rt : GoRT) (dl : dialect) (text : string) (header : list string) (recs : list (list string)) (cpu : Z) (exclude : list string)
    (crnd : nat -> nat) (keys q : list string) (wk : Z) (n : nat) (s : pool unit) (h : heap),
  let o := linreg_spec cpu exclude in
  csv_open dl o text = Some (header, recs) ->
  NoDup keys -> (forall c, c ∈ keys <-> c ∈ header /\ c ∉ exclude) -> "" ∉ keys ->
  csv_queue o crnd keys = (q, wk) ->
  steps false (length keys) (csv_job o header recs) n (pool_init q wk h) s ->
  exists m s', n <= m /\ steps false (length keys) (csv_job o header recs) m (pool_init q wk h) s' /\ closed (length keys) s'.
Proof.
  intros rt dl text header recs cpu exclude crnd keys q wk n s h o Eo Hnd Hk He Eq Hs.
  remember (5 * length keys + Z.to_nat wk + 1 - n) as g eqn:Eg. revert n s Hs Eg. induction g as [g IH] using lt_wf_ind. intros n s Hs Eg.
  destruct (C86_returns_main dl o text header recs crnd keys h q wk n s Eo Hnd Hk Eq Hs) as (R1 & R2 & _).
  destruct (R2 He (R1 eq_refl)) as (_ & R4 & R5 & _).
  destruct (decide (length keys <= length (p_got s))) as [Hc|Hc]; [by exists n, s|].
  destruct (R5 Hc) as [s1 Hs1]. assert (H1 : steps false (length keys) (csv_job o header recs) (S n) (pool_init q wk h) s1) by (by econstructor).
  destruct (C86_returns_main dl o text header recs crnd keys h q wk _ s1 Eo Hnd Hk Eq H1) as (_ & R2' & _).
  destruct (R2' He (R1 eq_refl)) as (_ & R4' & _).
  destruct (IH (5 * length keys + Z.to_nat wk + 1 - S n) ltac:(lia) (S n) s1 H1 eq_refl) as (m & s' & Hm & Hs' & Hcl').
  exists m, s'. split; [lia|done].
Qed.

(** ** A run *)
Section wit.
Local Existing Instance ex_rt.
Definition wp_text : string := "x,y,s,z" +:+ lf +:+ "1,3.5,u,no" +:+ lf +:+ "NA,5,v,1" +:+ lf +:+ "4,9e0,u," +:+ lf +:+ " ,8,-,0x1p4" +:+ lf.
Definition wp_recs : list (list string) := [["1"; "3.5"; "u"; "no"]; ["NA"; "5"; "v"; "1"]; ["4"; "9e0"; "u"; ""]; [" "; "8"; "-"; "0x1p4"]].
Definition wp_run : res (f64 * dframe * heap) :=
  program fbl elts ord0 map_to_list plain_d wp_text 1 ["z"] [["s"; "x"; "y"]] (fun i => i / 2) (fun _ => f64_one) (fun _ _ => 0) f_half true true "y" lw_params heap0.
Lemma wanted_dec_ok ex header recs c col : header !! col = Some c -> c ∉ ex -> Forall (fun i => header !! i <> Some c) (seq 0 col) ->
  (forall r, r ∈ recs -> is_Some (r !! col)) -> wanted ex header recs c (omap (fun r => r !! col) recs).
Proof.
  intros H1 H2 H3 H4. split; [by eapply elem_of_list_lookup_2|]. split; [done|]. exists col. split; [done|]. split.
  - intros j Hj. rewrite Forall_forall in H3. apply H3, elem_of_seq. lia.
  - clear -H4. induction recs as [|r recs IH]; [constructor|]. destruct (H4 r (elem_of_list_here _ _)) as [v Hv]. simpl. rewrite Hv.
    constructor; [done|]. apply IH. intros r' Hr'. apply H4. by right.
Qed.
Definition wp_header : list string := ["x"; "y"; "s"; "z"].
Lemma wp_wanted c col : wp_header !! col = Some c -> c <> "z" -> (forall i, i < col -> wp_header !! i <> Some c) ->
  wanted ["z"] wp_header wp_recs c (omap (fun r => r !! col) wp_recs).
Proof.
  intros H1 H2 H3. apply wanted_dec_ok; [done|by rewrite elem_of_list_singleton| |].
  - apply Forall_forall. intros i Hi%elem_of_seq. apply H3. lia.
  - intros r Hr. apply lookup_lt_is_Some. assert (length r = 4) as ->.
    { assert (H : Forall (fun r : list string => length r = 4) wp_recs) by (by repeat constructor). rewrite Forall_forall in H. by apply H. }
    apply lookup_lt_Some in H1. exact H1.
Qed.
Lemma wp_only c l : wanted ["z"] wp_header wp_recs c l -> ~ numeric l -> c = "s".
Proof.
  intros (H1 & H2 & H3) Hn. unfold wp_header in H1. rewrite !elem_of_cons, elem_of_nil in H1. rewrite elem_of_list_singleton in H2.
  destruct H1 as [-> |[-> |[-> |[-> |[]]]]]; [| |done|done]; destruct Hn.
  - destruct (wp_wanted "x" 0 eq_refl ltac:(done) ltac:(lia)) as (_ & _ & W). rewrite (cells_of_fun _ _ _ _ _ H3 W).
    apply numeric_pure. by vm_compute.
  - destruct (wp_wanted "y" 1 eq_refl ltac:(done) ltac:(intros [|]; [done|lia])) as (_ & _ & W). rewrite (cells_of_fun _ _ _ _ _ H3 W).
    apply numeric_pure. by vm_compute.
Qed.
Lemma C92_check_main : csv_open plain_d (linreg_spec 1 ["z"]) wp_text = Some (wp_header, wp_recs) /\
  (forall c, c ∈ ["s"; "x"; "y"] <-> c ∈ wp_header /\ c ∉ ["z"]) /\ Forall utf8 ["s"; "x"; "y"] /\
  (wanted ["z"] wp_header wp_recs "y" ["3.5"; "5"; "9e0"; "8"] /\ numeric ["3.5"; "5"; "9e0"; "8"]) /\
  (wanted ["z"] wp_header wp_recs "x" ["1"; "NA"; "4"; " "] /\ numeric ["1"; "NA"; "4"; " "]) /\
  (wanted ["z"] wp_header wp_recs "s" ["u"; "v"; "u"; "-"] /\ ~ numeric ["u"; "v"; "u"; "-"]) /\
  (forall c c' l l' i, wanted ["z"] wp_header wp_recs c l -> ~ numeric l -> wanted ["z"] wp_header wp_recs c' l' -> ~ numeric l' ->
     c' <> onehot_name c i /\ c' <> missing_name c) /\
  (exists q wk m s, csv_queue (linreg_spec 1 ["z"]) Datatypes.id ["s"; "x"; "y"] = (q, wk) /\
     steps false 3 (csv_job (linreg_spec 1 ["z"]) wp_header wp_recs) m (pool_init q wk heap0) s /\ closed 3 s) /\
  exists w h', wp_run = Ok ((f64_div (f64_of_Z 3) (f64_of_Z 2), w), h') /\ t_floats (abs h' w) "y" = [f64_of_Z 5; f64_of_Z 8].
Proof.
  assert (Ho : csv_open plain_d (linreg_spec 1 ["z"]) wp_text = Some (wp_header, wp_recs)) by (by vm_compute).
  assert (Hk : forall c, c ∈ ["s"; "x"; "y"] <-> c ∈ wp_header /\ c ∉ ["z"]).
  { intros c. unfold wp_header. rewrite !elem_of_cons, elem_of_nil. naive_solver. }
  split; [done|]. split; [done|]. split; [repeat constructor|].
  split; [split; [exact (wp_wanted "y" 1 eq_refl ltac:(done) ltac:(intros [|]; [done|lia]))|apply numeric_pure; by vm_compute]|].
  split; [split; [exact (wp_wanted "x" 0 eq_refl ltac:(done) ltac:(lia))|apply numeric_pure; by vm_compute]|].
  split; [split; [exact (wp_wanted "s" 2 eq_refl ltac:(done) ltac:(intros [|[|]]; [done|done|lia]))|rewrite numeric_pure; by vm_compute]|].
  split.
  { intros c c' l l' i H1 H2 H3 H4. rewrite (wp_only _ _ H1 H2), (wp_only _ _ H3 H4). unfold onehot_name, missing_name.
    split; intros E; symmetry in E; by apply P_AutoMain.string_app_ne in E. }
  split.
  { destruct (csv_queue (linreg_spec 1 ["z"]) Datatypes.id ["s"; "x"; "y"]) as [q wk] eqn:Eq. exists q, wk.
    destruct (C92_reads_main _ plain_d wp_text wp_header wp_recs 1 ["z"] Datatypes.id ["s"; "x"; "y"] q wk 0 (pool_init q wk heap0) heap0 Ho) as (m & s & _ & Hs & Hc);
      [apply (bool_decide_unpack _); by vm_compute|done|by rewrite !elem_of_cons, elem_of_nil; intros [|[|[|]]]|done|constructor|].
    exists m, s. done. }
  destruct wp_run as [[[e w] h']|] eqn:E.
  2: { exfalso. apply (f_equal (fun r => match r with Ok _ => true | Panic => false end)) in E. by vm_compute in E. }
  exists w, h'.
  assert (H : match wp_run with Ok ((e, w), h') => bool_decide (e = f64_div (f64_of_Z 3) (f64_of_Z 2) /\ t_floats (abs h' w) "y" = [f64_of_Z 5; f64_of_Z 8]) | Panic => false end = true) by (by vm_compute).
  rewrite E in H. apply bool_decide_eq_true in H as [-> Hy]. exact (conj eq_refl Hy).
Qed.
End wit.
