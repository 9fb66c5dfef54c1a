(** Printing: C81, C82. *)
From stdpp Require Import pretty.
From Coq Require Import Strings.Ascii.
From Verif Require Import M_Print Spec_Print P_View2 P_LinReg5.
From Verif Require Export P_Print.
From Verif Require Import P_Auto4 P_Check.

Lemma names_any h d c : c ∈ names (mp h (r_maps (d_raw d))) <-> exists k, is_Some (t_cols (abs h d) !! (k, c)).
Proof.
  rewrite elem_of_names. split.
  - intros (k & s & H). exists k. cbn [abs t_cols]. rewrite lookup_fmap, H. by eexists.
  - intros (k & x & H). cbn [abs t_cols] in H. rewrite lookup_fmap in H. destruct (mp h _ !! (k, c)) as [s|] eqn:E; [|done]. by exists k, s.
Qed.
Lemma order_kind h d k : in_order (fun c => is_Some (t_cols (abs h d) !! (k, c))) (sort_strings (elements (names_of k (mp h (r_maps (d_raw d)))))).
Proof. destruct (sort_in_order (names_of k (mp h (r_maps (d_raw d))))) as (A & B & C). split; [done|]. split; [done|]. intros c. by rewrite C, names_kind. Qed.

Definition rows_shown (n : Z) (t : table) : nat := if decide (0 <= n <= Z.of_nat (t_rows t))%Z then Z.to_nat n else t_rows t.
Lemma num_printed_rows n d h : num_printed n d = rows_shown n (abs h d).
Proof. unfold num_printed, rows_shown. cbn [abs t_rows]. repeat destruct (decide _); lia || done. Qed.
Definition spaced (fmt : string) : string := if decide (fmt = "") then " %.3f" else " " +:+ fmt.

Section print.
Context {prt : PrintRT}.
Lemma mapM_text_app {A} (f : A -> option string) l k :
  text <$> mapM f (l ++ k) = (a ← text <$> mapM f l; b ← text <$> mapM f k; Some (a +:+ b)).
Proof.
  induction l as [|x l IH].
  { cbn [app mapM]. destruct (mapM f k); done. }
  cbn [app mapM]. destruct (f x) as [y|]; [|done]. cbn [mbind option_bind]. destruct (mapM f (l ++ k)) as [a|], (mapM f l) as [b|], (mapM f k) as [c|]; cbn in IH |- *; try done.
  injection IH as IH. f_equal. change (y +:+ text a = (y +:+ text b) +:+ text c). rewrite append_assoc. f_equal. exact IH.
Qed.
Lemma mapM_pair (f : key -> option string) k l : mapM f (pair k <$> l) = mapM (fun c => f (k, c)) l.
Proof. induction l as [|c l IH]; [done|]. cbn [fmap list_fmap mapM]. by rewrite IH. Qed.

Lemma C81_head_main h d n fmt : wf h d -> let t := abs h d in
  exists lf li lb lo, in_order (fun c => is_Some (t_cols t !! (KFloat, c))) lf /\ in_order (fun c => is_Some (t_cols t !! (KInt, c))) li /\
    in_order (fun c => is_Some (t_cols t !! (KBool, c))) lb /\ in_order (fun c => is_Some (t_cols t !! (KObj, c))) lo /\
    print_head n fmt d h =
      match mapM (column_line (pr_float (spaced fmt)) pr_addr t (rows_shown n t))
                 ((pair KFloat <$> lf) ++ (pair KInt <$> li) ++ (pair KBool <$> lb) ++ (pair KObj <$> lo)) with
      | Some lines => Ok (text lines, h)
      | None => Panic
      end.
Proof.
  intros W t. set (L := fun k => sort_strings (elements (names_of k (mp h (r_maps (d_raw d)))))).
  exists (L KFloat), (L KInt), (L KBool), (L KObj). do 4 (split; [apply order_kind|]).
  unfold print_head. rewrite (num_printed_rows n d h). change (float_format fmt) with (spaced fmt). rewrite !print_kind_text by done.
  fold t. set (m := rows_shown n t). set (f := column_line _ _ t m).
  set (g := fun k => text <$> mapM (fun c => f (k, c)) (L k)).
  assert (E : text <$> mapM f ((pair KFloat <$> L KFloat) ++ (pair KInt <$> L KInt) ++ (pair KBool <$> L KBool) ++ (pair KObj <$> L KObj)) =
    (a ← g KFloat; b ← g KInt; c ← g KBool; e ← g KObj; Some (a +:+ b +:+ c +:+ e))).
  { rewrite !mapM_text_app, !mapM_pair. fold (g KFloat) (g KInt) (g KBool) (g KObj). 
    destruct (g KFloat), (g KInt), (g KBool), (g KObj); done. }
  change (text <$> mapM (fun c => f (KFloat, c)) (sort_strings (elements (names_of KFloat (mp h (r_maps (d_raw d))))))) with (g KFloat).
  change (text <$> mapM (fun c => f (KInt, c)) (sort_strings (elements (names_of KInt (mp h (r_maps (d_raw d))))))) with (g KInt).
  change (text <$> mapM (fun c => f (KBool, c)) (sort_strings (elements (names_of KBool (mp h (r_maps (d_raw d))))))) with (g KBool).
  change (text <$> mapM (fun c => f (KObj, c)) (sort_strings (elements (names_of KObj (mp h (r_maps (d_raw d))))))) with (g KObj).
  destruct (mapM f _) as [ls|]; cbn in E; destruct (g KFloat), (g KInt), (g KBool), (g KObj); cbn in E |- *; try done. by injection E as ->.
Qed.

Lemma shown_None flt t c v : shown flt pr_addr t c v = None <-> c ∈ t_strs t /\ t_enc t = None /\ exists i, v = VObj (OOther i).
Proof.
  split.
  - destruct v as [[|s|i]|x|z|b]; cbn; try done; destruct (decide (c ∈ t_strs t)); try done; destruct (t_enc t); try done. intros _. split; [done|]. split; [done|]. by exists i.
  - intros (H1 & H2 & i & ->). cbn. by rewrite decide_True, H2.
Qed.
Lemma mapM_None_inv {A B} (f : A -> option B) l : mapM f l = None <-> exists x, x ∈ l /\ f x = None.
Proof.
  rewrite eq_None_not_Some, mapM_is_Some. split.
  - intros H. apply not_Forall_Exists in H; [|intros x; unfold compose; apply _]. apply Exists_exists in H as (x & Hx & H). exists x. split; [done|]. unfold compose in H. destruct (f x); [exfalso; apply H; by eexists|done].
  - intros (x & Hx & E) HF. rewrite Forall_forall in HF. destruct (HF x Hx) as [y Hy]. congruence.
Qed.
Lemma wf_kind h d k c col v : wf h d -> t_cols (abs h d) !! (k, c) = Some col -> v ∈ col -> kind_of v = k.
Proof.
  intros [N W] Hc Hv. cbn [abs t_cols] in Hc. rewrite lookup_fmap in Hc. destruct (mp h _ !! (k, c)) as [s|] eqn:E; [|done]. injection Hc as <-.
  destruct (wf_cols _ _ _ W (k, c) s E) as [(A & B & HF) _]. unfold pick in Hv. apply elem_of_list_omap in Hv as (i & _ & Hi).
  unfold sl_vals in Hi. apply elem_of_list_lookup_2 in Hi. rewrite Forall_forall in HF. apply HF.
  apply elem_of_list_lookup in Hi as [j Hj]. apply lookup_take_Some in Hj as [Hj Hlt]. apply elem_of_list_lookup. exists j. rewrite lookup_take by lia. done.
Qed.
Lemma C81_panics_main h d n fmt : wf h d -> let t := abs h d in
  print_head n fmt d h = Panic <->
  exists c col i id, c ∈ t_strs t /\ t_enc t = None /\ t_cols t !! (KObj, c) = Some col /\ i < rows_shown n t /\ col !! i = Some (VObj (OOther id)).
Proof.
  intros W t. destruct (C81_head_main h d n fmt W) as (lf & li & lb & lo & (_ & _ & Hf) & (_ & _ & Hi) & (_ & _ & Hb) & (_ & _ & Ho) & ->). fold t in Hf, Hi, Hb, Ho |- *.
  set (ks := (_ ++ _)). assert (Hks : forall k, k ∈ ks <-> is_Some (t_cols t !! k)).
  { intros [k c]. unfold ks. rewrite !elem_of_app, !elem_of_list_fmap. split.
    - intros [(x & [= -> ->] & H)|[(x & [= -> ->] & H)|[(x & [= -> ->] & H)|(x & [= -> ->] & H)]]]; naive_solver.
    - intros H. destruct k; [right; right; right|left|right; left|right; right; left]; exists c; naive_solver. }
  clearbody ks. clear lf li lb lo Hf Hi Hb Ho. set (f := column_line _ _ _ _).
  transitivity (mapM f ks = None). { destruct (mapM f ks); done. }
  rewrite mapM_None_inv. split.
  - intros ([k c] & Hk & E). apply Hks in Hk as [col Hc]. unfold f, column_line in E. cbn [snd] in E. rewrite Hc in E. cbn in E.
    destruct (mapM _ (take _ col)) eqn:EM; [done|]. apply mapM_None_inv in EM as (v & Hv & EV). apply shown_None in EV as (H1 & H2 & id & ->).
    pose proof (fun H => wf_kind h d k c col (VObj (OOther id)) W Hc H) as HK.
    apply elem_of_list_lookup in Hv as [i Hv]. apply lookup_take_Some in Hv as [Hv Hlt].
    specialize (HK (elem_of_list_lookup_2 _ _ _ Hv)). cbn in HK. subst k. exists c, col, i, id. done.
  - intros (c & col & i & id & H1 & H2 & Hc & Hlt & Hv). exists (KObj, c). split; [apply Hks; by eexists|].
    unfold f, column_line. cbn [snd]. rewrite Hc. cbn. destruct (mapM _ (take _ col)) eqn:EM; [|done]. exfalso.
    assert (mapM (shown (pr_float (spaced fmt)) pr_addr t c) (take (rows_shown n t) col) = None); [|congruence].
    apply mapM_None_inv. exists (VObj (OOther id)). split; [|apply shown_None; naive_solver].
    apply elem_of_list_lookup. exists i. by rewrite lookup_take.
Qed.

(** ** PrintRecords *)
Lemma print_field_text h d f short i j c : wf h d -> inds d !! i = Some j -> c ∈ names (mp h (r_maps (d_raw d))) ->
  pr_format (default c (short !! c)) = default c (short !! c) ->
  print_field h d f short j c =
    o2r (col ← named (abs h d) c; v ← col !! i; s ← shown (pr_float f) pr_addr (abs h d) c v; Some (" " +:+ default c (short !! c) +:+ ":" +:+ s)).
Proof.
  intros [N W] Hi Hc Hp. unfold print_field. cbv zeta. rewrite Hp.
  set (val := fun s : slice => print_cells (print_val f (bool_decide (is_Some (r_enc (d_raw d)))) (bool_decide (c ∈ ostr h (r_strs (d_raw d))))) (sl_vals h s) [j]).
  assert (HV : forall k s, mp h (r_maps (d_raw d)) !! (k, c) = Some s ->
    val s = o2r (v ← pick (inds d) (sl_vals h s) !! i; shown (pr_float f) pr_addr (abs h d) c v)).
  { intros k s Es. unfold val. pose proof (col_range h d N (k, c) s W Es) as HL. pose proof (wf_rng _ _ _ W) as HR.
    change (r_enc (d_raw d)) with (t_enc (abs h d)). change (ostr h (r_strs (d_raw d))) with (t_strs (abs h d)).
    rewrite (print_cells_text _ (shown (pr_float f) pr_addr (abs h d) c)).
    - rewrite pick_lookup by (by rewrite HL). rewrite Hi. cbn. rewrite pick_cons. destruct (sl_vals h s !! j) as [v|] eqn:Ev.
      + rewrite pick_nil. cbn [mapM mbind option_bind]. destruct (shown _ _ _ _ v) as [x|]; [|done]. change (Ok (x +:+ "") = Ok x). by rewrite append_nil_r.
      + apply lookup_ge_None in Ev. rewrite Forall_lookup in HR. specialize (HR i j Hi). lia.
    - intros v. apply print_val_shown.
    - constructor; [|done]. rewrite HL. rewrite Forall_lookup in HR. by apply (HR i). }
  unfold val in HV. apply names_any in Hc. unfold named. cbn [abs t_cols] in Hc |- *. rewrite !lookup_fmap. 
  destruct (mp h (r_maps (d_raw d)) !! (KFloat, c)) as [s|] eqn:E1;
    [|destruct (mp h (r_maps (d_raw d)) !! (KObj, c)) as [s|] eqn:E2;
      [|destruct (mp h (r_maps (d_raw d)) !! (KInt, c)) as [s|] eqn:E3;
        [|destruct (mp h (r_maps (d_raw d)) !! (KBool, c)) as [s|] eqn:E4]]].
  5: { destruct Hc as ([] & x & Hx); rewrite lookup_fmap in Hx; [rewrite E2 in Hx|rewrite E1 in Hx|rewrite E3 in Hx|rewrite E4 in Hx]; done. }
  - rewrite (HV _ s E1). cbn [fmap option_fmap option_map mbind option_bind]. destruct (pick (inds d) (sl_vals h s) !! i) as [v|]; [|done]. cbn. by destruct (shown _ _ _ _ v).
  - rewrite (HV _ s E2). cbn [fmap option_fmap option_map mbind option_bind]. destruct (pick (inds d) (sl_vals h s) !! i) as [v|]; [|done]. cbn. by destruct (shown _ _ _ _ v).
  - rewrite (HV _ s E3). cbn [fmap option_fmap option_map mbind option_bind]. destruct (pick (inds d) (sl_vals h s) !! i) as [v|]; [|done]. cbn. by destruct (shown _ _ _ _ v).
  - rewrite (HV _ s E4). cbn [fmap option_fmap option_map mbind option_bind]. destruct (pick (inds d) (sl_vals h s) !! i) as [v|]; [|done]. cbn. by destruct (shown _ _ _ _ v).
Qed.
Lemma print_rows_text h d f short order w : wf h d -> (forall c, c ∈ order -> c ∈ names (mp h (r_maps (d_raw d)))) ->
  (forall c, c ∈ order -> pr_format (default c (short !! c)) = default c (short !! c)) ->
  forall js i, (forall a j, js !! a = Some j -> inds d !! (i + a) = Some j) ->
  print_rows h d f short order w i js =
    o2r (text <$> mapM (record_line (pr_float f) pr_addr (abs h d) (fun c => default c (short !! c)) order w (inds d)) (seq i (length js))).
Proof.
  intros W Ho Hp. induction js as [|j js IH]; intros i Hj; [done|]. cbn [print_rows length seq mapM].
  assert (Hi : inds d !! i = Some j). { rewrite <- (Nat.add_0_r i). by apply (Hj 0). }
  rewrite (IH (S i)) by (intros a x Hx; specialize (Hj (S a) x Hx); by rewrite Nat.add_succ_r in Hj). 
  rewrite (print_all_text _ (fun c => col ← named (abs h d) c; v ← col !! i; s ← shown (pr_float f) pr_addr (abs h d) c v;
    Some (" " +:+ default c (short !! c) +:+ ":" +:+ s))) by (intros c Hc; apply print_field_text; auto).
  set (rl := record_line _ _ _ _ _ _ _). set (fld := fun c => _). 
  assert (ER : rl i = (fields ← mapM fld order; Some ("[" +:+ right_align w (pretty (Z.of_nat i)) +:+ ":" +:+ pretty (Z.of_nat j) +:+ "]" +:+ text fields +:+ line_end))).
  { unfold rl, record_line. by rewrite Hi. }
  rewrite ER. destruct (mapM fld order) as [fs|]; [|done]. cbn [mbind option_bind fmap option_fmap option_map o2r res_bind].
  destruct (mapM rl (seq (S i) (length js))) as [ls|]; [|done]. cbn [mbind option_bind fmap option_fmap option_map o2r res_bind mret option_ret]. f_equal. rewrite pad_int_align.
  change (text (?a :: ls)) with (a +:+ text ls). rewrite !append_assoc. done.
Qed.
Lemma go_length k : forall x s, (10 ^ N.of_nat k <= x < 10 ^ N.of_nat (S k))%N -> String.length (pretty_N_go x s) = S k + String.length s.
Proof.
  induction k as [|k IH]; intros x s H.
  - cbn in H. rewrite pretty_N_go_step by lia. rewrite N.div_small by lia. rewrite pretty_N_go_0. done.
  - assert (E1 : (10 ^ N.of_nat (S k) = 10 * 10 ^ N.of_nat k)%N) by (rewrite Nat2N.inj_succ; by rewrite N.pow_succ_r').
    assert (E2 : (10 ^ N.of_nat (S (S k)) = 10 * 10 ^ N.of_nat (S k))%N) by (rewrite (Nat2N.inj_succ (S k)); by rewrite N.pow_succ_r').
    rewrite E2 in H. assert (P : (0 < 10 ^ N.of_nat k)%N) by (apply N.neq_0_lt_0, N.pow_nonzero; lia).
    rewrite pretty_N_go_step by lia. rewrite IH; [cbn [String.length]; lia|]. split.
    + apply N.div_le_lower_bound; lia.
    + apply N.div_lt_upper_bound; lia.
Qed.
Lemma pretty_len k x : (10 ^ N.of_nat k <= N.of_nat x < 10 ^ N.of_nat (S k))%N -> String.length (pretty (Z.of_nat x)) = S k.
Proof.
  intros H. assert (P : (0 < 10 ^ N.of_nat k)%N) by (apply N.neq_0_lt_0, N.pow_nonzero; lia).
  destruct x as [|x]; [cbn in H; lia|]. change (pretty (Z.of_nat (S x))) with (pretty (N.of_nat (S x))). unfold pretty, pretty_N. rewrite decide_False by lia.
  rewrite (go_length k) by done. cbn. lia.
Qed.
Lemma int_width_length x : (10 <= Z.of_nat x <= 9999)%Z -> int_width (Z.of_nat x) = String.length (pretty (Z.of_nat x)).
Proof.
  intros H. unfold int_width. rewrite decide_False by lia. destruct (decide _) as [H1|H1]; [symmetry; apply (pretty_len 1); cbn; lia|].
  destruct (decide _) as [H2|H2]; [symmetry; apply (pretty_len 2); cbn; lia|]. rewrite decide_True by lia. symmetry. apply (pretty_len 3). cbn. lia.
Qed.
Lemma C82_records_partial_main h d n fmt short : (forall s, no_percent s -> pr_format s = s) -> wf h d -> let t := abs h d in
  (forall k c, is_Some (t_cols t !! (k, c)) -> no_percent (default c (short !! c))) ->
  exists names w, in_order (fun c => exists k, is_Some (t_cols t !! (k, c))) names /\
    (w = if decide (10 < Z.of_nat (rows_shown n t) <= 10000)%Z then String.length (pretty (Z.of_nat (rows_shown n t - 1))) else 0) /\
    print_records n fmt short d h =
      match mapM (record_line (pr_float (spaced fmt)) pr_addr t (fun c => default c (short !! c)) names w (inds d)) (seq 0 (rows_shown n t)) with
      | Some lines => Ok (text lines, h)
      | None => Panic
      end.
Proof.
  intros Hp W t Hn. set (order := sort_strings (elements (names (mp h (r_maps (d_raw d)))))).
  destruct (sort_in_order (names (mp h (r_maps (d_raw d))))) as (A & B & C). fold order in A, B, C.
  exists order, (int_width (Z.of_nat (rows_shown n t) - 1)). split; [|split].
  - split; [done|]. split; [done|]. intros c. rewrite C. apply names_any.
  - destruct (decide _) as [H|H].
    + rewrite <- int_width_length by lia. f_equal. lia.
    + unfold int_width. repeat destruct (decide _); try done; lia.
  - unfold print_records. rewrite (num_printed_rows n d h). fold t order. change (float_format fmt) with (spaced fmt).
    assert (HL : length (take (rows_shown n t) (inds d)) = rows_shown n t).
    { rewrite take_length. destruct W as [N W]. rewrite (wfn_inds_length _ _ _ W). change (num_rows d) with (t_rows t). unfold rows_shown. destruct (decide _); lia. }
    rewrite print_rows_text.
    + rewrite HL. fold t. by destruct (mapM _ (seq 0 (rows_shown n t))).
    + done.
    + intros c Hc. by apply C.
    + intros c Hc. apply Hp. apply C, names_any in Hc as [k Hk]. by apply (Hn k).
    + intros a j Hj. by apply lookup_take_Some in Hj as [? _].
Qed.
End print.

(** ** Concrete cases *)
(** Formats: only %% is interpreted, as fmt does without arguments. *)
Fixpoint unpercent (s : string) : string :=
  match s with
  | String a (String b s' as r) => if decide (a = ascii_of_nat 37 /\ b = ascii_of_nat 37) then String a (unpercent s') else String a (unpercent r)
  | _ => s
  end.
Lemma unpercent_id s : no_percent s -> unpercent s = s.
Proof.
  enough (H : forall n s, String.length s <= n -> no_percent s -> unpercent s = s) by (by apply (H (String.length s))).
  clear s. intros n. induction n as [|n IH]; intros [|a [|b s]] Hl H; try done; cbn in Hl; [lia|]. cbn [unpercent].
  destruct H as [H1 H2]. destruct (decide _) as [[-> _]|_]; [done|]. f_equal. apply (IH (String b s)); [cbn; lia|done].
Qed.
Section wit.
Existing Instance ex_rt.
Instance ex_prt : PrintRT := {| pr_float := fun _ x => if f64_lt x f64_one then " low" else " high"; pr_addr := fun _ => "addr"; pr_format := unpercent |}.
Definition printed (x : M string) (h : heap) : string := match x h with Ok (s, _) => s | Panic => "panic" end.
Lemma C81_check_main : wf ex_vh ex_v /\ print_head 2 "" ex_v ex_vh = Ok (text
  ["b: high low"; line_end; "a: 9 5"; line_end; "f: 1 1"; line_end; "s: 'yy' 'x'"; line_end], ex_vh).
Proof. split; [exact ex_v_wf|by vm_compute]. Qed.
Lemma C82_check_main : (forall s, no_percent s -> pr_format s = s) /\ wf ex_vh ex_v /\
  (forall k c, is_Some (t_cols (abs ex_vh ex_v) !! (k, c)) -> no_percent (default c ((∅ : gmap string string) !! c))) /\
  print_records 2 "" ∅ ex_v ex_vh = Ok (text
    ["[0:2] a: 9 b: high f: 1 s: 'yy'"; line_end; "[1:0] a: 5 b: low f: 1 s: 'x'"; line_end], ex_vh).
Proof.
  split; [exact unpercent_id|]. split; [exact ex_v_wf|]. split; [|by vm_compute].
  intros k c Hc. rewrite lookup_empty. cbn [default]. assert (Hn : c ∈ names (mp ex_vh (r_maps (d_raw ex_v)))) by (apply names_any; by exists k).
  apply elem_of_elements in Hn. assert (E : elements (names (mp ex_vh (r_maps (d_raw ex_v)))) ≡ₚ ["a"; "b"; "f"; "s"]).
  { apply (bool_decide_unpack _). by vm_compute. }
  rewrite E in Hn. repeat (apply elem_of_cons in Hn as [->|Hn]; [by split|]). by apply elem_of_nil in Hn.
Qed.
(** Column names are used as formats. *)
Definition wp : dframe * heap := run_df (let* r := new_raw in
  let* r := b_add KInt r "%%" [VInt 7] in to_dataframe r) heap0.
Lemma C82_percent_refuted_main : exists (prt : PrintRT) d h, (forall s, no_percent s -> pr_format s = s) /\ wf h d /\
  is_Some (t_cols (abs h d) !! (KInt, "%%")) /\ print_records 1 "" ∅ d h = Ok ("[0:0] %: 7" +:+ line_end, h).
Proof.
  exists ex_prt, wp.1, wp.2. split; [exact unpercent_id|]. split; [apply (wf_check_sound _ _ 1); by vm_compute|].
  split; [apply (bool_decide_unpack _); by vm_compute|by vm_compute].
Qed.
(** Of two columns with the same name only one is printed. *)
Definition wq (z : Z) : dframe * heap := run_df (let* r := new_raw in
  let* r := b_add KInt r "x" [VInt z] in
  let* r := b_add KFloat r "x" [VFloat f64_one] in to_dataframe r) heap0.
Lemma C82_same_name_refuted_main : exists (prt : PrintRT) d1 h1 d2 h2 s, wf h1 d1 /\ wf h2 d2 /\
  t_cols (abs h1 d1) !! (KInt, "x") <> t_cols (abs h2 d2) !! (KInt, "x") /\
  print_head 1 "" d1 h1 <> Panic /\ print_records 1 "" ∅ d1 h1 = Ok (s, h1) /\ print_records 1 "" ∅ d2 h2 = Ok (s, h2).
Proof.
  exists ex_prt, (wq 1).1, (wq 1).2, (wq 2).1, (wq 2).2, ("[0:0] x: high" +:+ line_end). split; [apply (wf_check_sound _ _ 1); by vm_compute|].
  split; [apply (wf_check_sound _ _ 1); by vm_compute|]. split; [by vm_compute|]. split; [by vm_compute|]. split; by vm_compute.
Qed.
End wit.
