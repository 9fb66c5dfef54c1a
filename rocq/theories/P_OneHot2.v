(** One-hot encoding: Fit. *)
From Verif Require Export P_OneHot.

Definition col_freqs (vs : list Z) : gmap Z Z := delete (-1)%Z (count_cats vs).
Lemma col_freqs_lookup vs z : col_freqs vs !! z = if decide (is_cat vs z) then Some (Z.of_nat (freq z vs)) else None.
Proof.
  unfold col_freqs. destruct (decide (z = (-1)%Z)) as [->|Hz].
  - rewrite lookup_delete. rewrite decide_False; [done|]. by intros [_ H].
  - rewrite lookup_delete_ne by done. rewrite count_cats_spec. destruct (decide (z ∈ vs)).
    + by rewrite decide_True.
    + rewrite decide_False; [done|]. by intros [H _].
Qed.
Lemma col_freqs_dom vs z : z ∈ dom (col_freqs vs) <-> is_cat vs z.
Proof. rewrite elem_of_dom, col_freqs_lookup. destruct (decide (is_cat vs z)); [by split; eauto|]. split; [by intros [? ?]|done]. Qed.

Section fit.
Context (ord : bool -> gset Z -> list Z) (Hord : forall b X, ord b X ≡ₚ elements X).
Lemma ord_nodup b X : NoDup (ord b X).
Proof. rewrite Hord. apply NoDup_elements. Qed.
Lemma ord_elem b X z : z ∈ ord b X <-> z ∈ X.
Proof. rewrite Hord. apply elem_of_elements. Qed.

Lemma names_of_cats c vs : let toNew := name_cats c (ord true (dom (col_freqs vs))) in
  (forall z, is_Some (toNew !! z) <-> is_cat vs z) /\
  (forall z n, toNew !! z = Some n -> exists i, n = onehot_name c i /\ i < size toNew) /\
  (forall z1 z2 n, toNew !! z1 = Some n -> toNew !! z2 = Some n -> z1 = z2).
Proof.
  intros toNew. pose proof (ord_nodup true (dom (col_freqs vs))) as Hnd. split_and!.
  - intros z. rewrite <- col_freqs_dom, <- (ord_elem true), elem_of_list_lookup. split.
    + intros [n (i & Hi & _)%name_cats_spec]; [by exists i|done].
    + intros [i Hi]. exists (onehot_name c i). apply name_cats_spec; [done|]. by exists i.
  - intros z n (i & Hi & ->)%name_cats_spec; [|done]. exists i. split; [done|].
    assert (Hs : size toNew = length (ord true (dom (col_freqs vs)))).
    { unfold toNew, name_cats, size, map_size. rewrite map_to_list_to_map; [by rewrite imap_length|].
      exact (eq_ind_r (fun l => NoDup l) Hnd (imap_fst (fun i _ => onehot_name c i) _ 0)). }
    rewrite Hs. by eapply lookup_lt_Some.
  - intros z1 z2 n (i1 & H1 & ->)%name_cats_spec (i2 & H2 & E)%name_cats_spec; try done.
    apply onehot_name_inj in E as [_ ->]. congruence.
Qed.
Lemma common_ok c vs : let freqs := col_freqs vs in
  let toNew := name_cats c (ord true (dom freqs)) in
  let common := default "" (toNew !! most_common freqs (ord false (dom freqs))) in
  (exists z, is_cat vs z) -> exists z, frequent_cat vs z /\ toNew !! z = Some common.
Proof.
  intros freqs toNew common [z0 Hz0]. destruct (most_common_spec freqs (ord false (dom freqs))) as (z & n & E & Hz & Hn & Hmax).
  - intros z Hz%ord_elem%col_freqs_dom. unfold freqs. rewrite col_freqs_lookup, decide_True by done. eexists. split; [done|]. lia.
  - intros E. assert (Hx : z0 ∈ ord false (dom freqs)) by (by apply ord_elem, col_freqs_dom). rewrite E in Hx. by apply elem_of_nil in Hx.
  - exists z. apply ord_elem, col_freqs_dom in Hz. split.
    + split; [done|]. intros z' Hz'. specialize (Hmax z' (Z.of_nat (freq z' vs))). unfold freqs in Hmax, Hn. rewrite col_freqs_lookup, decide_True in Hmax by done.
      rewrite col_freqs_lookup, decide_True in Hn by done. injection Hn as <-.
      assert ((Z.of_nat (freq z' vs) <= Z.of_nat (freq z vs))%Z); [|lia]. apply Hmax; [by apply ord_elem, col_freqs_dom|done].
    + destruct (names_of_cats c vs) as (N1 & _). unfold common. rewrite E. fold freqs toNew in N1. destruct (proj2 (N1 z) Hz) as [x Hx]. by rewrite Hx.
Qed.
Lemma common_none c vs : let freqs := col_freqs vs in
  let toNew := name_cats c (ord true (dom freqs)) in
  (forall z, ~ is_cat vs z) -> forall z, toNew !! z = None.
Proof.
  intros freqs toNew H z. destruct (toNew !! z) eqn:E; [|done]. destruct (names_of_cats c vs) as (N1 & _). exfalso. apply (H z), N1. by eexists.
Qed.
Lemma cats_dec vs : (exists z, is_cat vs z) \/ (forall z, ~ is_cat vs z).
Proof.
  destruct (filter (fun z => z <> (-1)%Z) vs) as [|z l] eqn:E.
  - right. intros z [H1 H2]. assert (Hx : z ∈ filter (fun z => z <> (-1)%Z) vs) by (by apply elem_of_list_filter). rewrite E in Hx. by apply elem_of_nil in Hx.
  - left. exists z. assert (Hx : z ∈ filter (fun z => z <> (-1)%Z) vs) by (rewrite E; by apply elem_of_cons; left). apply elem_of_list_filter in Hx as [H1 H2]. done.
Qed.
Lemma oh_columns_some opt toNew fb0 fb1 names : oh_columns opt (toNew, (fb0, fb1)) = Some names ->
  forall n, n ∈ names <-> (exists z : Z, toNew !! z = Some n) \/ (n <> "" /\ (n = fb0 \/ n = fb1)).
Proof.
  unfold oh_columns. destruct (decide _) as [|N0]; [done|]. destruct (decide _) as [|N1]; [done|]. intros E n. assert (names = (map_to_list toNew).*2 ++ (if decide (fb0 = "") then [] else [fb0]) ++ (if decide (fb1 = "" \/ fb1 = fb0) then [] else [fb1])) as -> by congruence. clear E.
  rewrite !elem_of_app.
  assert (A : n ∈ (map_to_list toNew).*2 <-> exists z : Z, toNew !! z = Some n).
  { rewrite elem_of_list_fmap. split.
    - intros ([z n'] & -> & H%elem_of_map_to_list). by exists z.
    - intros [z H%elem_of_map_to_list]. by exists (z, n). }
  rewrite A. assert (B : (n ∈ (if decide (fb0 = "") then [] else [fb0]) \/ n ∈ (if decide (fb1 = "" \/ fb1 = fb0) then [] else [fb1])) <-> (n <> "" /\ (n = fb0 \/ n = fb1))).
  { destruct (decide (fb0 = "")) as [->|H0], (decide (fb1 = "" \/ _)) as [H1|H1].
    - rewrite elem_of_nil. split; [tauto|]. intros [Hn Hx]. destruct H1 as [-> | ->]; naive_solver.
    - rewrite elem_of_nil, elem_of_list_singleton. naive_solver.
    - rewrite elem_of_nil, elem_of_list_singleton. naive_solver.
    - rewrite !elem_of_list_singleton. naive_solver. }
  by rewrite B.
Qed.
Lemma oh_columns_none opt toNew fb0 fb1 : oh_columns opt (toNew, (fb0, fb1)) = None <->
  (fb0 = "" /\ oh_missing opt <> PError) \/ (fb1 = "" /\ oh_unknown opt <> PError).
Proof. unfold oh_columns. destruct (decide _); [naive_solver|]. destruct (decide _); naive_solver. Qed.

Lemma fit_cats_ok opt c vs : fixed opt -> exists toNew fb0 fb1, fit_cats opt ord c vs = (toNew, (fb0, fb1)) /\
  (oh_columns opt (toNew, (fb0, fb1)) = None <-> no_fallback opt vs) /\
  (is_Some (oh_columns opt (toNew, (fb0, fb1))) -> fitted_col opt c vs toNew fb0 fb1).
Proof.
  intros [F1 F2]. unfold fit_cats. fold (col_freqs vs).
  set (toNew := name_cats c (ord true (dom (col_freqs vs)))).
  assert (Hm : bool_decide (is_Some (count_cats vs !! (-1)%Z)) = bool_decide ((-1)%Z ∈ vs)).
  { apply bool_decide_ext. rewrite count_cats_spec. destruct (decide ((-1)%Z ∈ vs)); [split; [done|by eauto]|split; [by intros [? ?]|done]]. }
  rewrite Hm. clear Hm.
  set (common := default "" (toNew !! (if decide (oh_missing opt <> PError \/ oh_unknown opt <> PError) then most_common (col_freqs vs) (ord false (dom (col_freqs vs))) else 0%Z))).
  destruct (names_of_cats c vs) as (N1 & N2 & N3). fold toNew in N1, N2, N3.
  assert (HC : (exists z, is_cat vs z) -> oh_missing opt <> PError \/ oh_unknown opt <> PError -> (exists z, frequent_cat vs z /\ toNew !! z = Some common) /\ common <> "").
  { intros Hz Hp. unfold common. rewrite decide_True by done. destruct (common_ok c vs Hz) as (z & Hf & Hl). fold toNew in Hl. split; [by exists z|].
    destruct (N2 _ _ Hl) as (i & Ei & _). intros E0. apply (proj1 (name_ne c i)). by rewrite <- Ei. }
  assert (HN : (forall z, ~ is_cat vs z) -> common = "").
  { intros Hz. unfold common. by rewrite (common_none c vs Hz : forall z, toNew !! z = None). }
  clearbody common. pose proof (name_ne c 0) as (_ & X1 & X2).
  eexists _, _, _. split; [reflexivity|].
  assert (Fi : is_Some (oh_columns opt (toNew, (match oh_missing opt with
             | PIfSeen => if bool_decide ((-1)%Z ∈ vs) then missing_name c else common
             | PSeparate => missing_name c
             | PFrequent => common
             | PShared | PError => ""
             end, match oh_unknown opt with
             | PSeparate => unk_name c
             | PFrequent => common
             | PShared => match oh_missing opt with
             | PIfSeen => if bool_decide ((-1)%Z ∈ vs) then missing_name c else common
             | PSeparate => missing_name c
             | PFrequent => common
             | PShared | PError => ""
             end
             | PIfSeen | PError => ""
             end))) <-> ~ no_fallback opt vs).
  { rewrite <- not_eq_None_Some, oh_columns_none. unfold no_fallback.
    destruct (cats_dec vs) as [Hz|Hz].
    - assert (HC' := HC Hz). assert (~ (forall z, ~ is_cat vs z)) by (destruct Hz as [z Hz]; intros H; by apply (H z)).
      destruct (oh_missing opt) eqn:Em, (oh_unknown opt) eqn:Eu; try destruct (bool_decide ((-1)%Z ∈ vs)) eqn:Eb; naive_solver.
    - assert (HN' := HN Hz). destruct (oh_missing opt) eqn:Em, (oh_unknown opt) eqn:Eu; try (destruct (bool_decide ((-1)%Z ∈ vs)) eqn:Eb; [apply bool_decide_eq_true in Eb|apply bool_decide_eq_false in Eb]); naive_solver. }
  split.
  - rewrite eq_None_not_Some, Fi. split; [|tauto]. intros Hn. destruct (cats_dec vs) as [Hz|Hz].
    + destruct (decide (oh_missing opt = PError /\ oh_unknown opt = PShared)); [by right|]. exfalso. apply Hn. intros [[H _]|]; [|done]. destruct Hz as [z Hz]. by apply (H z).
    + destruct (decide (oh_missing opt = PError /\ oh_unknown opt = PShared)); [by right|].
      destruct (decide (oh_missing opt = PFrequent \/ oh_unknown opt = PFrequent \/ (oh_missing opt = PIfSeen /\ (-1)%Z ∉ vs))); [by left|].
      exfalso. apply Hn. intros [[_ H]|]; done.
  - intros Hs. split; [done..| |].
    + rewrite <- not_eq_None_Some, oh_columns_none in Hs. unfold fallback0_ok. destruct (cats_dec vs) as [Hz|Hz].
      * pose proof (HC Hz) as HC'. destruct (oh_missing opt) eqn:Em; try done; [|by apply HC'; left].
        case_bool_decide; [by rewrite decide_True|]. rewrite decide_False by done. by apply HC'; left.
      * pose proof (HN Hz) as HN'. destruct (oh_missing opt) eqn:Em; try done; [|naive_solver].
        case_bool_decide; [by rewrite decide_True|]. naive_solver.
    + rewrite <- not_eq_None_Some, oh_columns_none in Hs. unfold fallback1_ok. destruct (cats_dec vs) as [Hz|Hz].
      * pose proof (HC Hz) as HC'. destruct (oh_unknown opt) eqn:Em; try done; [|by apply HC'; right]. split; [done|]. naive_solver.
      * pose proof (HN Hz) as HN'. destruct (oh_unknown opt) eqn:Em; try done; [split; [done|]|]; naive_solver.
Qed.
End fit.

Lemma run_jobs_seq {R} (prog : string -> job R) keys h : run_jobs prog keys h =
  match seq_all ((fun k => (k, prog k)) <$> keys) h with Some (r, h') => Ok (r, h') | None => Panic end.
Proof.
  revert h. induction keys as [|k keys IH]; intros h; [done|]. cbn [run_jobs]. rewrite fmap_cons. cbn [seq_all].
  destruct (run_job (prog k) h) as [[r h1]|]; [|done]. unfold bind. rewrite IH. destruct (seq_all _ h1) as [[rs h2]|]; done.
Qed.

Section fitdf.
Context (order : gset string -> list string) (Horder : forall X, order X ≡ₚ elements X).
Context (ord : string -> bool -> gset Z -> list Z) (Hord : forall c b X, ord c b X ≡ₚ elements X).

Lemma int_of_the v : int_of v = the_int v.
Proof. done. Qed.
Lemma oh_fit_seq opt d cols h : wf h d -> (forall c, c ∈ cols -> is_Some (t_cols (abs h d) !! (KInt, c))) ->
  seq_all ((fun c => (c, oh_fit_job opt ord (mp h (r_maps (d_raw d))) d c)) <$> cols) h =
  Some ((fun c => (c, fit_cats opt (ord c) c (t_ints (abs h d) c))) <$> cols, h).
Proof.
  intros W Hc. induction cols as [|c cols IH]; [done|]. rewrite !fmap_cons. cbn [seq_all].
  assert (E : run_job (oh_fit_job opt ord (mp h (r_maps (d_raw d))) d c) h = Some (fit_cats opt (ord c) c (t_ints (abs h d) c), h)).
  { destruct (Hc c) as [col Hcol]; [by apply elem_of_cons; left|]. destruct W as [n W]. unfold oh_fit_job.
    rewrite abs_cols_lookup in Hcol. destruct (mp h (r_maps (d_raw d)) !! (KInt, c)) as [s|] eqn:Es; [|done].
    destruct (gather_col h d n _ s W Es) as [E1 E2]. rewrite (read_job_run _ _ _ _ _ _ E1). simpl. unfold t_ints. by rewrite E2. }
  rewrite E, IH; [done|]. intros c' Hc'. apply Hc. by apply elem_of_cons; right.
Qed.
Lemma oh_fit_pool opt d cols h : wf h d -> NoDup cols -> "" ∉ cols -> (1 <= actual_max_cpu (d_raw d))%Z ->
  (forall c, c ∈ cols -> is_Some (t_cols (abs h d) !! (KInt, c))) ->
  forall deferred rnd q w m s, create_queue rnd cols (actual_max_cpu (d_raw d)) = (q, w) ->
    let prog := oh_fit_job opt ord (mp h (r_maps (d_raw d))) d in
    steps deferred (length cols) prog m (pool_init q w h) s ->
    m <= (num_rows d + 4) * length cols + Z.to_nat w + 1 /\ p_crash s = false /\
    (closed (length cols) s -> p_heap s = h /\ p_got s ≡ₚ (fun c => (c, fit_cats opt (ord c) c (t_ints (abs h d) c))) <$> cols) /\
    (~ closed (length cols) s -> exists s', step deferred (length cols) prog s s').
Proof.
  intros W Hnd He Hcpu Hc deferred rnd q w m s Eq prog Hst.
  assert (Hl : length (inds d) <= num_rows d) by (unfold inds, ilist, num_rows; rewrite take_length; lia).
  eapply (pool_all _ prog (fun _ _ => True) (fun _ _ => False) cols _ h _ h (num_rows d)); try done.
  - intros c Hin. unfold prog, oh_fit_job. destruct (_ !! (KInt, c)); [|constructor]. apply read_job_fp; [done|]. intros vs. constructor.
  - intros c Hin. unfold prog, oh_fit_job. destruct (_ !! (KInt, c)); [|constructor].
    replace (num_rows d) with (length (inds d) + (num_rows d - length (inds d))) by lia. apply read_job_depth. intros vs. constructor.
  - by apply oh_fit_seq.
Qed.

Lemma elem_of_concat {A} (x : A) ls : x ∈ concat ls <-> exists l, x ∈ l /\ l ∈ ls.
Proof. rewrite elem_of_list_In, in_concat. split; intros (l & H1 & H2); exists l; rewrite !elem_of_list_In in *; done. Qed.
(** Collecting does not depend on the order of the results. *)
Lemma mapM_perm {A B} (f : A -> option B) l l' : l ≡ₚ l' ->
  match mapM f l, mapM f l' with Some x, Some y => x ≡ₚ y | None, None => True | _, _ => False end.
Proof.
  induction 1 as [|a l l' Hp IH|a b l|l1 l2 l3 _ IH1 _ IH2]; simpl; [done| | |].
  - destruct (f a); simpl; [|done]. destruct (mapM f l), (mapM f l'); simpl; try done. by constructor.
  - destruct (f a), (f b); simpl; try done; destruct (mapM f l); simpl; try done. constructor.
  - destruct (mapM f l1), (mapM f l2), (mapM f l3); try done. by etrans.
Qed.
Lemma oh_collect_perm opt cols results results' h : results ≡ₚ results' -> NoDup results.*1 ->
  oh_collect order opt cols results h = oh_collect order opt cols results' h.
Proof.
  intros Hp Hnd. unfold oh_collect. pose proof (mapM_perm (fun p : string * (gmap Z string * (string * string)) => oh_columns opt p.2) _ _ Hp) as HM.
  destruct (mapM _ results) as [n1|], (mapM _ results') as [n2|]; try done. unfold ret. do 2 f_equal. f_equal; [f_equal| |].
  - apply leibniz_equiv. intros x. rewrite !elem_of_list_to_set, !elem_of_concat. split; intros (y & H1 & H2); exists y; split; try done; by (rewrite HM || rewrite <- HM).
  - apply list_to_map_proper; [|by rewrite Hp]. rewrite <- list_fmap_compose. done.
  - apply list_to_map_proper; [|by rewrite Hp]. rewrite <- list_fmap_compose. done.
Qed.

Lemma oh_fit_eq opt d h : wf h d -> let cols := order (names_of KInt (mp h (r_maps (d_raw d)))) in
  oh_fit order ord opt d h = oh_collect order opt cols ((fun c => (c, fit_cats opt (ord c) c (t_ints (abs h d) c))) <$> cols) h /\
  NoDup cols /\ forall c, c ∈ cols <-> is_Some (t_cols (abs h d) !! (KInt, c)).
Proof.
  intros W cols. assert (HE : forall c, c ∈ cols <-> is_Some (t_cols (abs h d) !! (KInt, c))).
  { intros c. unfold cols. rewrite Horder, elem_of_elements, elem_of_names_of, abs_cols_lookup. by rewrite fmap_is_Some. }
  split; [|split; [unfold cols; rewrite Horder; apply NoDup_elements|done]].
  unfold oh_fit. unfold bind at 1, get_mp at 1. fold cols. unfold bind. rewrite run_jobs_seq, (oh_fit_seq opt d cols h W); [done|]. intros c Hc. by apply HE.
Qed.

Lemma oh_fit_spec opt d h : fixed opt -> wf h d ->
  match oh_fit order ord opt d h with
  | Ok (e, h') => h' = h /\ fitted opt (abs h d) e /\
      forall c, is_Some (t_cols (abs h d) !! (KInt, c)) -> ~ no_fallback opt (t_ints (abs h d) c)
  | Panic => exists c, is_Some (t_cols (abs h d) !! (KInt, c)) /\ no_fallback opt (t_ints (abs h d) c)
  end.
Proof.
  intros F W. destruct (oh_fit_eq opt d h W) as (E & Hnd & Hel). rewrite E. clear E.
  set (cols := order (names_of KInt (mp h (r_maps (d_raw d))))) in *. set (t := abs h d) in *.
  unfold oh_collect. set (results := (fun c => (c, fit_cats opt (ord c) c (t_ints t c))) <$> cols).
  assert (HF : forall c, exists toNew fb0 fb1, fit_cats opt (ord c) c (t_ints t c) = (toNew, (fb0, fb1)) /\
    (oh_columns opt (toNew, (fb0, fb1)) = None <-> no_fallback opt (t_ints t c)) /\
    (is_Some (oh_columns opt (toNew, (fb0, fb1))) -> fitted_col opt c (t_ints t c) toNew fb0 fb1)).
  { intros c. apply fit_cats_ok; done. }
  destruct (mapM (fun p => oh_columns opt p.2) results) as [new|] eqn:EM.
  - unfold ret. split; [done|]. apply mapM_Some in EM.
    assert (Hcol : forall c, c ∈ cols -> exists names, oh_columns opt (fit_cats opt (ord c) c (t_ints t c)) = Some names /\ names ∈ new).
    { intros c Hc. apply elem_of_list_lookup in Hc as [i Hi]. assert (Hr : results !! i = Some (c, fit_cats opt (ord c) c (t_ints t c))) by (unfold results; by rewrite list_lookup_fmap, Hi).
      destruct (Forall2_lookup_l _ _ _ _ _ EM Hr) as (y & Hy & Ey). exists y. split; [done|]. by eapply elem_of_list_lookup_2. }
    assert (Hinv : forall names, names ∈ new -> exists c, c ∈ cols /\ oh_columns opt (fit_cats opt (ord c) c (t_ints t c)) = Some names).
    { intros names [i Hi]%elem_of_list_lookup. destruct (Forall2_lookup_r _ _ _ _ _ EM Hi) as (y & Hy & Ey). unfold results in Hy. rewrite list_lookup_fmap in Hy.
      destruct (cols !! i) as [c|] eqn:Ec; [|done]. simpl in Hy. injection Hy as <-. exists c. split; [by eapply elem_of_list_lookup_2|done]. }
    assert (Hm : forall c {B} (g : string * (gmap Z string * (string * string)) -> B) x, c ∈ cols -> g (c, fit_cats opt (ord c) c (t_ints t c)) = x ->
      (list_to_map ((fun p => (p.1, g p)) <$> results) : gmap string B) !! c = Some x).
    { intros c B g x Hc Hg. apply elem_of_list_to_map_1.
      - unfold results. rewrite <- !list_fmap_compose. replace ((fst ∘ (fun p => (p.1, g p))) ∘ (fun c0 => (c0, fit_cats opt (ord c0) c0 (t_ints t c0))) <$> cols) with cols; [done|]. symmetry. apply list_fmap_id.
      - unfold results. rewrite <- list_fmap_compose. apply elem_of_list_fmap. exists c. split; [|done]. simpl. by rewrite Hg. }
    split.
    + split; simpl; try done.
      * intros c Hc. destruct (HF c) as (toNew & fb0 & fb1 & E & HN & HS). exists toNew, fb0, fb1.
        rewrite (Hm c _ (fun p => p.2.1) toNew Hc (f_equal fst E)). rewrite (Hm c _ (fun p => p.2.2) (fb0, fb1) Hc (f_equal snd E)).
        split; [done|]. split; [done|]. apply HS. destruct (Hcol c Hc) as (names & En & _). rewrite E in En. by eexists.
      * rewrite Horder. apply NoDup_elements.
      * intros n. rewrite Horder, elem_of_elements, elem_of_list_to_set, elem_of_concat. split.
        -- intros (names & Hn & (c & Hc & En)%Hinv). exists c. split; [done|]. destruct (HF c) as (toNew & fb0 & fb1 & E & HN & HS). rewrite E in En.
           apply (oh_columns_some _ _ _ _ _ En) in Hn as [[z Hz]|[Hne Hn]].
           ++ left. exists toNew, z. simpl. split; [|done]. exact (Hm c _ (fun p => p.2.1) toNew Hc (f_equal fst E)).
           ++ right. split; [done|]. exists fb0, fb1. simpl. split; [|done]. exact (Hm c _ (fun p => p.2.2) (fb0, fb1) Hc (f_equal snd E)).
        -- intros (c & Hc & Hcr). destruct (Hcol c Hc) as (names & En & Hnew). exists names. split; [|done].
           destruct (HF c) as (toNew & fb0 & fb1 & E & HN & HS). rewrite E in En. apply (oh_columns_some _ _ _ _ _ En).
           destruct Hcr as [(toNew' & z & H1 & H2)|(Hne & fb0' & fb1' & H1 & H2)]; simpl in H1.
           ++ left. exists z. rewrite (Hm c _ (fun p => p.2.1) toNew Hc (f_equal fst E)) in H1. by injection H1 as <-.
           ++ right. split; [done|]. rewrite (Hm c _ (fun p => p.2.2) (fb0, fb1) Hc (f_equal snd E)) in H1. by injection H1 as <- <-.
    + intros c Hc%Hel Hno. destruct (Hcol c Hc) as (names & En & _). destruct (HF c) as (toNew & fb0 & fb1 & E & HN & HS). rewrite E in En. apply HN in Hno. congruence.
  - unfold panic. apply mapM_None in EM. apply Exists_exists in EM as (x & Hx & Ex). unfold results in Hx. apply elem_of_list_fmap in Hx as (c & -> & Hc). cbn [snd] in Ex.
    exists c. split; [by apply Hel|]. destruct (HF c) as (toNew & fb0 & fb1 & E & HN & HS). rewrite E in Ex. by apply HN.
Qed.
End fitdf.
