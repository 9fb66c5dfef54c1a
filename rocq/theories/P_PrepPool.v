(** The workers of the scaler and of the imputer, arbitrarily scheduled. *)
From Verif Require Export P_PoolMain P_Prep2.

(** Everything C41 and C42 say about a pool. *)
Lemma pool_all (R : Type) (prog : string -> job R) rs ws keys mw h (results : list (string * R)) h' D :
  NoDup keys -> "" ∉ keys -> (1 <= mw)%Z ->
  (forall k, k ∈ keys -> fp (rs k) (ws k) (prog k)) ->
  (forall k k' a, k <> k' -> ws k a -> ~ rs k' a /\ ~ ws k' a) ->
  (forall k, k ∈ keys -> jdepth D (prog k)) ->
  seq_all ((fun k => (k, prog k)) <$> keys) h = Some (results, h') ->
  forall deferred rnd q w m s, create_queue rnd keys mw = (q, w) ->
    steps deferred (length keys) prog m (pool_init q w h) s ->
    m <= (D + 4) * length keys + Z.to_nat w + 1 /\ p_crash s = false /\
    (closed (length keys) s -> p_heap s = h' /\ p_got s ≡ₚ results) /\
    (~ closed (length keys) s -> exists s', step deferred (length keys) prog s s').
Proof.
  intros Hnd He Hw Hfp Hni HD Hs deferred rnd q w m s Eq Hst.
  destruct (C41_every_key_once_partial_main R deferred prog rnd keys mw h q w m s He Eq Hst) as (_ & _ & _ & Hprog & Hbound).
  destruct (C42_schedules_agree_partial_main R deferred prog rs ws rnd keys mw h q w m s results h' Hnd He Hfp Hni Hs Eq Hst) as [Hcr Hcl].
  split; [by apply Hbound|]. split; [done|]. split; [done|]. intros Hn. by apply Hprog.
Qed.

(** Reading jobs. *)
Lemma read_job_run {R} s k h : forall ix acc vs, gather s ix h = Ok (vs, h) ->
  run_job (R := R) (read_job s ix acc k) h = run_job (k (reverse acc ++ vs)) h.
Proof.
  induction ix as [|i ix IH]; intros acc vs E; [simpl in *; unfold ret in E; injection E as <-; by rewrite app_nil_r|].
  cbn [gather] in E. unfold bind in E. unfold sl_rd in E. destruct (sl_vals h s !! i) as [v|] eqn:Ev; [|done].
  destruct (gather s ix h) as [[r h1]|] eqn:Eg; [|done]. unfold ret in E. assert (vs = v :: r /\ h1 = h) as [-> ->] by (split; congruence).
  assert (Hi : i < s_len s /\ mem_get h (s_arr s, s_off s + i) = Some v).
  { unfold sl_vals in Ev. apply lookup_take_Some in Ev as [Ev ?]. rewrite lookup_drop in Ev. done. }
  cbn [read_job]. rewrite decide_True by apply Hi. cbn [run_job]. rewrite (proj2 Hi).
  rewrite (IH (v :: acc) r eq_refl). by rewrite reverse_cons, <- app_assoc.
Qed.
Lemma read_job_fp {R} (rs ws : addr -> Prop) s (k : list val -> job R) : forall ix acc,
  (forall i, i ∈ ix -> rs (s_arr s, s_off s + i)) -> (forall vs, fp rs ws (k vs)) -> fp rs ws (read_job s ix acc k).
Proof.
  induction ix as [|i ix IH]; intros acc H1 H2; [apply H2|]. cbn [read_job]. destruct (decide _); [|constructor].
  constructor; [apply H1; by apply elem_of_cons; left|]. intros v. apply IH; [|done]. intros i' Hi. apply H1. by apply elem_of_cons; right.
Qed.
Lemma read_job_depth {R} s (k : list val -> job R) D : forall ix acc, (forall vs, jdepth D (k vs)) ->
  jdepth (length ix + D) (read_job s ix acc k).
Proof.
  induction ix as [|i ix IH]; intros acc H; [apply H|]. cbn [read_job length]. destruct (decide _); [|constructor].
  simpl. constructor. intros v. by apply IH.
Qed.

Section prep.
Context {rt : GoRT}.

Lemma fit_seq {B} (f : list f64 -> B) d cols h : wf h d ->
  (forall c, c ∈ cols -> is_Some (t_cols (abs h d) !! (KFloat, c))) ->
  seq_all ((fun c => (c, fit_job f (mp h (r_maps (d_raw d))) d c)) <$> cols) h =
  Some ((fun c => (c, f (t_floats (abs h d) c))) <$> cols, h).
Proof.
  intros W Hc. induction cols as [|c cols IH]; [done|]. rewrite !fmap_cons. cbn [seq_all].
  assert (E : run_job (fit_job f (mp h (r_maps (d_raw d))) d c) h = Some (f (t_floats (abs h d) c), h)).
  { destruct (Hc c) as [col Hcol]; [by apply elem_of_cons; left|]. destruct W as [n W]. unfold fit_job.
    rewrite abs_cols_lookup in Hcol. destruct (mp h (r_maps (d_raw d)) !! (KFloat, c)) as [s|] eqn:Es; [|done].
    destruct (gather_col h d n _ s W Es) as [E1 E2]. rewrite (read_job_run _ _ _ _ _ _ E1). simpl. unfold t_floats. by rewrite E2. }
  rewrite E, IH; [done|]. intros c' Hc'. apply Hc. by apply elem_of_cons; right.
Qed.

Lemma fit_pool {B} (f : list f64 -> B) d cols h : wf h d -> NoDup cols -> "" ∉ cols -> (1 <= actual_max_cpu (d_raw d))%Z ->
  (forall c, c ∈ cols -> is_Some (t_cols (abs h d) !! (KFloat, c))) ->
  forall deferred rnd q w m s, create_queue rnd cols (actual_max_cpu (d_raw d)) = (q, w) ->
    let prog := fit_job f (mp h (r_maps (d_raw d))) d in
    steps deferred (length cols) prog m (pool_init q w h) s ->
    m <= (num_rows d + 4) * length cols + Z.to_nat w + 1 /\ p_crash s = false /\
    (closed (length cols) s -> p_heap s = h /\ p_got s ≡ₚ (fun c => (c, f (t_floats (abs h d) c))) <$> cols) /\
    (~ closed (length cols) s -> exists s', step deferred (length cols) prog s s').
Proof.
  intros W Hnd He Hcpu Hc deferred rnd q w m s Eq prog Hst.
  assert (Hl : length (inds d) <= num_rows d) by (unfold inds, ilist, num_rows; rewrite take_length; lia).
  eapply (pool_all B prog (fun _ _ => True) (fun _ _ => False) cols _ h _ h (num_rows d)); try done.
  - intros c Hin. unfold prog, fit_job. destruct (_ !! (KFloat, c)); [|constructor]. apply read_job_fp; [done|]. intros vs. constructor.
  - intros c Hin. unfold prog, fit_job. destruct (_ !! (KFloat, c)); [|constructor].
    replace (num_rows d) with (length (inds d) + (num_rows d - length (inds d))) by lia. apply read_job_depth. intros vs. constructor.
  - by apply fit_seq.
Qed.

(** The scaling workers. *)
Definition scale_fp (h : heap) (d : dframe) (cols : list string) (c : string) (a : addr) : Prop :=
  c ∈ cols /\ exists j, cell_of h d (KFloat, c) j = Some a.
Lemma scale_job_run (sc : scaler f64_arith) d c h h' : wf h d -> update_column (scale_value sc c) d c h = Ok (tt, h') ->
  run_job (scale_job sc (mp h (r_maps (d_raw d))) d c) h = Some (tt, h').
Proof.
  intros [n W] E. unfold update_column, access, bind at 1 2, get_mp in E. unfold scale_job.
  destruct (mp h (r_maps (d_raw d)) !! (KFloat, c)) as [s|] eqn:Es; [|done].
  destruct (wfn_col _ _ _ _ _ W Es) as (Hok & Hn & Hr).
  apply map_job_run; [exact E|]. intros i Hi. destruct (col_ok_cell h KFloat s i Hok) as (v & Hv & _).
  - pose proof (wf_rng _ _ _ W) as HF. rewrite Forall_forall in HF. specialize (HF _ Hi). lia.
  - by exists v.
Qed.
Lemma scale_seq (sc : scaler f64_arith) d cols : forall h h', wf h d ->
  forM cols (fun c => update_column (scale_value sc c) d c) h = Ok (tt, h') ->
  seq_all ((fun c => (c, scale_job sc (mp h (r_maps (d_raw d))) d c)) <$> cols) h = Some ((fun c => (c, tt)) <$> cols, h').
Proof.
  induction cols as [|c cols IH]; intros h h' W E; [simpl in E; unfold ret in E; by injection E as ->|].
  cbn [forM] in E. unfold bind at 1 in E. pose proof (update_column_spec (scale_value sc c) d c h W) as HU.
  destruct (update_column (scale_value sc c) d c h) as [[[] h1]|] eqn:E1; [|done]. destruct HU as (_ & Wr & _).
  rewrite !fmap_cons. cbn [seq_all]. rewrite (scale_job_run sc d c h h1 W E1).
  rewrite <- (wrt_mp h h1 _ Wr). rewrite (IH h1 h'); [done|by eapply wrt_wf|done].
Qed.
Lemma scale_pool (sc : scaler f64_arith) d cols h h' : wf h d -> NoDup cols -> "" ∉ cols -> (1 <= actual_max_cpu (d_raw d))%Z ->
  own_cells h d (list_to_set cols) ->
  forM cols (fun c => update_column (scale_value sc c) d c) h = Ok (tt, h') ->
  forall deferred rnd q w m s, create_queue rnd cols (actual_max_cpu (d_raw d)) = (q, w) ->
    let prog := scale_job sc (mp h (r_maps (d_raw d))) d in
    steps deferred (length cols) prog m (pool_init q w h) s ->
    m <= (2 * num_rows d + 4) * length cols + Z.to_nat w + 1 /\ p_crash s = false /\
    (closed (length cols) s -> p_heap s = h') /\
    (~ closed (length cols) s -> exists s', step deferred (length cols) prog s s').
Proof.
  intros W Hnd He Hcpu Hown Hrun deferred rnd q w m s Eq prog Hst.
  assert (Hl : length (inds d) <= num_rows d) by (unfold inds, ilist, num_rows; rewrite take_length; lia).
  destruct (pool_all unit prog (scale_fp h d cols) (scale_fp h d cols) cols (actual_max_cpu (d_raw d)) h
    ((fun c => (c, tt)) <$> cols) h' (2 * num_rows d)) with deferred rnd q w m s as (H1 & H2 & H3 & H4); try done.
  - intros c Hin. unfold prog, scale_job. destruct (_ !! (KFloat, c)) as [sl|] eqn:Es; [|constructor].
    assert (Hcell : forall i, i ∈ inds d -> scale_fp h d cols c (s_arr sl, s_off sl + i)).
    { intros i [j Hj]%elem_of_list_lookup. split; [done|]. exists j. unfold cell_of. rewrite Es. simpl. by rewrite Hj. }
    apply map_job_fp; done.
  - intros c c' a Hne [Hc [j Hj]]. assert (X : ~ scale_fp h d cols c' a); [|done].
    intros [Hc' [j' Hj']]. assert ((KFloat, c') = (KFloat, c)) by (eapply Hown; [|exact Hj|exact Hj']; set_solver). congruence.
  - intros c Hin. unfold prog, scale_job. destruct (_ !! (KFloat, c)); [|constructor].
    pose proof (map_job_depth (fun v => VFloat (scale_value sc c (float_of v))) s0 s0 (inds d)) as HD.
    revert HD. generalize (map_job (fun v => VFloat (scale_value sc c (float_of v))) s0 s0 (inds d)). intros j HD.
    assert (Hle : 2 * length (inds d) <= 2 * num_rows d) by lia. revert Hle. generalize (2 * num_rows d). clear -HD.
    induction HD as [| |m0 a f Hf IH|m0 a v j HD IH]; intros D HD'; try constructor; destruct D as [|D]; try lia; constructor; intros; apply IH; lia.
  - by apply scale_seq.
  - split; [done|]. split; [done|]. split; [intros Hc; by apply H3|done].
Qed.
End prep.
