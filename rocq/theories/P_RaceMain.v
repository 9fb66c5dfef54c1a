(** C87: no data race in the worker pools. *)
From Verif Require Import P_Exec.
From Verif Require Import P_FilesMain P_OneHotMain P_PrepMain P_PoolMain P_Check.

(** What a worker is about to do to the memory: write or read a cell. *)
Definition next_access {R} (x : worker R) : option (bool * addr) :=
  match w_st x with
  | WRun _ (JRd a _) => Some (false, a)
  | WRun _ (JWr a _ _) => Some (true, a)
  | _ => None
  end.
(** Two workers are about to access the same cell, one of them to write it. *)
Definition race {R} (s : pool R) : Prop :=
  exists i j x y a b, i <> j /\ p_ws s !! i = Some x /\ p_ws s !! j = Some y /\
    next_access x = Some (true, a) /\ next_access y = Some (b, a).

Lemma sublist_NoDup {A} (l k : list A) : l `sublist_of` k -> NoDup k -> NoDup l.
Proof.
  induction 1 as [|x l k Hs IH|x l k Hs IH]; [done| |].
  - intros [Hx Hk]%NoDup_cons. apply NoDup_cons. split; [|by apply IH]. intros Hl. apply Hx.
    by eapply elem_of_submseteq; [|apply sublist_submseteq].
  - intros [_ Hk]%NoDup_cons. by apply IH.
Qed.
Section race.
Context {R : Type} (deferred : bool) (n : nat) (prog : string -> job R) (rs ws : string -> addr -> Prop).

(** The keys being processed and waiting are distinct; the jobs stay in their footprints. *)
Definition rinv (keys : list string) (s : pool R) : Prop :=
  NoDup ((running s).*1 ++ p_q s) /\ (forall k, k ∈ p_q s -> k ∈ keys) /\ fps rs ws (running s).
Lemma rinv_step keys s s' : (forall k, k ∈ keys -> fp (rs k) (ws k) (prog k)) -> rinv keys s -> step deferred n prog s s' -> rinv keys s'.
Proof.
  intros Hfp (C1 & C2 & C3) Hs. unfold rinv, running, fps in *.
  destruct Hs as [s i dl lg k q Hc Hw Hq Hk|s i dl lg q Hc Hw Hq|s i dl lg Hc Hw Hq|s i dl lg k a f v Hc Hw Ha
    |s i dl lg k a v j Hc Hw Ha|s i dl lg k a f Hc Hw Ha|s i dl lg k a v j Hc Hw Ha|s i dl lg k Hc Hw
    |s i dl lg k r Hc Hw Hd|s i dl lg k r Hc Hw Hd|s i dl lg k r Hc Hw Hcl Hr|s i x dl lg Hc Hw Hcl Hr
    |s i k r dl lg Hc Hw Hcl|s i x dl lg Hc Hw Hcl|s x c Hc Hch Hcl];
  try (destruct (concat_at w_run _ _ _ Hw) as (A & B & R1 & R2); rewrite R1 in C1, C3; unfold w_run in C1, C3; cbn [w_st] in C1, C3);
  unfold set_w, crash; cbn [p_ws p_q]; try rewrite R2; try rewrite R1; try unfold w_run; cbn [w_st].
  - rewrite Hq in C1, C2. split; [|split].
    + cbn [w_st] in *. rewrite !fmap_app in *. cbn [app fmap list_fmap fst] in *. eapply NoDup_Permutation_proper; [|exact C1].
      rewrite <- !app_assoc. f_equiv. cbn [app]. by rewrite Permutation_middle.
    + intros k' Hk'. apply C2. by right.
    + cbn [w_st] in *. rewrite Forall_app in *. cbn [app] in *. rewrite Forall_cons. destruct C3. split; [done|]. split; [|done]. cbn. apply Hfp, C2. left.
  - rewrite Hq in C1, C2. cbn [w_st] in *. split; [|split].
    + eapply sublist_NoDup; [|exact C1]. apply sublist_app; [done|]. by constructor.
    + intros k' Hk'. apply C2. by right.
    + done.
  - done.
  - cbn [w_st]. split; [|split]; [by rewrite !fmap_app in *|done|].
    rewrite Forall_app in *. cbn [app] in *. rewrite Forall_cons in *. destruct C3 as (? & Hf & ?). split; [done|]. split; [|done]. cbn in *.
    inversion Hf; subst. auto.
  - cbn [w_st]. split; [|split]; [by rewrite !fmap_app in *|done|].
    rewrite Forall_app in *. cbn [app] in *. rewrite Forall_cons in *. destruct C3 as (? & Hf & ?). split; [done|]. split; [|done]. cbn in *.
    inversion Hf; subst. auto.
  - done.
  - done.
  - done.
  - cbn [w_st]. split; [|split]; [|done|].
    + eapply sublist_NoDup; [|exact C1]. apply sublist_app; [|done]. rewrite !fmap_app. apply sublist_app; [done|]. cbn. by constructor.
    + rewrite Forall_app in *. cbn [app] in *. rewrite Forall_cons in C3. tauto.
  - cbn [w_st]. split; [|split]; [|done|].
    + eapply sublist_NoDup; [|exact C1]. apply sublist_app; [|done]. rewrite !fmap_app. apply sublist_app; [done|]. cbn. by constructor.
    + rewrite Forall_app in *. cbn [app] in *. rewrite Forall_cons in C3. tauto.
  - done.
  - done.
  - done.
  - done.
  - done.
Qed.
Lemma rinv_race keys s : (forall k k' a, k <> k' -> ws k a -> ~ rs k' a /\ ~ ws k' a) -> rinv keys s -> ~ race s.
Proof.
  intros Hni (C1 & _ & C3) (i & j & x & y & a & b & Hij & Hi & Hj & Hx & Hy). unfold running, fps in *.
  assert (Hrun : forall x i b a, p_ws s !! i = Some x -> next_access x = Some (b, a) -> exists k jb, w_run x = [(k, jb)] /\ fp (rs k) (ws k) jb /\ if b : bool then ws k a else rs k a).
  { intros z i' b' a' Hz Ha. unfold next_access in Ha. unfold w_run. destruct (w_st z) as [|k jb|k r|] eqn:Ez; try done.
    exists k, jb. split; [done|]. assert (Hf : fp (rs k) (ws k) jb).
    { rewrite Forall_forall in C3. apply (C3 (k, jb)). apply elem_of_list_In, in_concat. exists (w_run z). split.
      - apply in_map. apply elem_of_list_In. by eapply elem_of_list_lookup_2.
      - unfold w_run. rewrite Ez. by left. }
    split; [done|]. destruct jb; try done; injection Ha as <- <-; inversion Hf; subst; done. }
  destruct (Hrun x i true a Hi Hx) as (k & jb & E1 & _ & Hw). destruct (Hrun y j b a Hj Hy) as (k' & jb' & E2 & _ & Ho).
  assert (Hkk : k <> k').
  { intros <-. apply NoDup_app in C1 as [C1 _]. 
    destruct (concat_at w_run _ _ _ Hi) as (A & B & R1 & R2). specialize (R2 (Worker WNext [] [])).
    rewrite R1, E1 in C1. rewrite !fmap_app in C1. cbn in C1. apply NoDup_app in C1 as (N1 & N2 & N3). apply NoDup_cons in N3 as [N3 N4].
    assert (Hin : (k, jb') ∈ concat (w_run <$> <[i := Worker WNext [] []]> (p_ws s))).
    { apply elem_of_list_In, in_concat. exists (w_run y). split.
      - apply in_map, elem_of_list_In. eapply (elem_of_list_lookup_2 _ j). by rewrite list_lookup_insert_ne.
      - rewrite E2. by left. }
    rewrite R2 in Hin. apply elem_of_app in Hin as [Hin|Hin].
    - eapply N2; [by apply (elem_of_list_fmap_1 fst) in Hin|left].
    - apply N3. by apply (elem_of_list_fmap_1 fst) in Hin. }
  destruct (Hni k k' a Hkk Hw) as [N1 N2]. destruct b; done.
Qed.
End race.

Lemma C87_no_race_main : forall (R : Type) (deferred : bool) (prog : string -> job R) (rs ws : string -> addr -> Prop)
    (rnd : nat -> nat) (keys : list string) (max_workers : Z) (h : heap) (q : list string) (w : Z) (m : nat) (s : pool R),
  NoDup keys ->
  (forall k, k ∈ keys -> fp (rs k) (ws k) (prog k)) ->
  (forall k k' a, k <> k' -> ws k a -> ~ rs k' a /\ ~ ws k' a) ->
  create_queue rnd keys max_workers = (q, w) ->
  steps deferred (length keys) prog m (pool_init q w h) s -> ~ race s.
Proof.
  intros R deferred prog rs ws rnd keys mw h q w m s Hnd Hfp Hni Eq Hs. apply (rinv_race rs ws keys); [done|].
  pose proof (C41_create_queue_main rnd keys mw) as HQ. rewrite Eq in HQ. destruct HQ as (Hp & _).
  remember (pool_init q w h) as s0 eqn:E0. induction Hs as [s|m s1 s2 s3 Hs IH Hst].
  - subst s. assert (E : running (pool_init (R := R) q w h) = []).
    { unfold running, pool_init. cbn [p_ws]. induction (Z.to_nat w) as [|k IH]; [done|]. rewrite replicate_S, fmap_cons. cbn. exact IH. }
    unfold rinv. rewrite E. split; [cbn; by rewrite Hp|]. split; [intros k; cbn; by rewrite Hp|constructor].
  - eapply rinv_step; [exact Hfp|by apply IH|exact Hst].
Qed.

Section main.
Context {rt : GoRT}.
Lemma C87_hash_strings_view_main : forall (h : heap) (d : dframe) (cols : list string),
  wf h d -> cols <> [] -> NoDup cols ->
  (forall c, c ∈ cols -> is_Some (t_cols (abs h d) !! (KObj, c))) ->
  (exists k, is_Some (t_cols (abs h d) !! k) /\ k.2 ∉ cols) ->
  exists v h2, hash_prepare d cols h = Ok (v, h2) /\
    forall max_workers rnd q w m s, create_queue rnd cols max_workers = (q, w) ->
      steps true (length cols) (hash_job (mp h2 (r_maps (d_raw d))) (mp h2 (r_maps (d_raw v))) d) m (pool_init q w h2) s -> ~ race s.
Proof.
  intros h d cols W Hc Hnd Hobj Hk.
  destruct (hash_prepare_spec h d cols W Hc Hobj Hk) as (v & h2 & h3 & E1 & E2 & E3 & Hni & Hf).
  exists v, h2. split; [done|]. intros mw rnd q w m s Eq Hs.
  eapply (C87_no_race_main _ true _ (hash_rs (mp h2 (r_maps (d_raw d))) d cols) (hash_ws (mp h2 (r_maps (d_raw v))) d cols)); [exact Hnd| | |exact Eq|exact Hs].
  - intros k Hk'. unfold fps in Hf. rewrite Forall_fmap, Forall_forall in Hf. by apply Hf.
  - intros k k' a Hkk Hw. exact (proj1 (Hni k k' Hkk a) Hw).
Qed.
(** Fit of Scaler, FloatImputer and OneHotEncoder only reads. *)
Lemma C87_fit_main : forall (h : heap) (d : dframe) (opt : scaler_opt) (ohopt : oh_opt) (ord : string -> bool -> gset Z -> list Z)
    (cols : list string) (deferred : bool) (max_workers : Z) (rnd : nat -> nat) (q : list string) (w : Z) (m : nat),
  NoDup cols -> create_queue rnd cols max_workers = (q, w) ->
  (forall s, steps deferred (length cols) (fit_job (fit_col f64_arith opt) (mp h (r_maps (d_raw d))) d) m (pool_init q w h) s -> ~ race s) /\
  (forall s, steps deferred (length cols) (fit_job (mean_of f64_arith) (mp h (r_maps (d_raw d))) d) m (pool_init q w h) s -> ~ race s) /\
  (forall s, steps deferred (length cols) (oh_fit_job ohopt ord (mp h (r_maps (d_raw d))) d) m (pool_init q w h) s -> ~ race s).
Proof.
  intros h d opt ohopt ord cols deferred mw rnd q w m Hnd Eq.
  split; [|split]; intros s Hs; eapply (C87_no_race_main _ deferred _ (fun _ _ => True) (fun _ _ => False)); try exact Hnd; try exact Eq; try exact Hs; try done;
    intros c Hc; [unfold fit_job|unfold fit_job|unfold oh_fit_job]; (destruct (_ !! (_, c)); [|constructor]); apply read_job_fp; [done|intros; constructor|done|intros; constructor|done|intros; constructor].
Qed.
Lemma C87_scale_main : forall (order : gset string -> list string) (sc : scaler f64_arith) (h : heap) (d : dframe),
  (forall X, order X ≡ₚ elements X) -> own_cells h d (spec_cols sc) ->
  let keys := order (spec_cols sc) in
  forall deferred max_workers rnd q w m s, create_queue rnd keys max_workers = (q, w) ->
    steps deferred (length keys) (scale_job sc (mp h (r_maps (d_raw d))) d) m (pool_init q w h) s -> ~ race s.
Proof.
  intros order sc h d Ho Hown keys deferred mw rnd q w m s Eq Hs.
  assert (Hk : forall c, c ∈ keys <-> c ∈ spec_cols sc) by (intros c; unfold keys; by rewrite Ho, elem_of_elements).
  eapply (C87_no_race_main _ deferred _ (scale_fp h d keys) (scale_fp h d keys) rnd keys); [unfold keys; rewrite Ho; apply NoDup_elements| | |exact Eq|exact Hs].
  - intros c Hin. unfold scale_job. destruct (_ !! (KFloat, c)) as [sl|] eqn:Es; [|constructor].
    assert (Hcell : forall i, i ∈ inds d -> scale_fp h d keys c (s_arr sl, s_off sl + i)).
    { intros i [j Hj]%elem_of_list_lookup. split; [done|]. exists j. unfold cell_of. rewrite Es. simpl. by rewrite Hj. }
    apply map_job_fp; done.
  - intros c c' a Hne [Hc [j Hj]]. assert (X : ~ scale_fp h d keys c' a); [|done].
    intros [Hc' [j' Hj']]. assert ((KFloat, c') = (KFloat, c)) by (eapply Hown; [by apply Hk|exact Hj|exact Hj']). congruence.
Qed.
Lemma C87_one_hot_main : forall (opt : oh_opt) t0 (e : encoder) (h : heap) (d : dframe),
  fixed opt -> fitted opt t0 e -> wf h d -> en_cats e <> [] ->
  (forall c, c ∈ en_cats e -> is_Some (t_cols (abs h d) !! (KInt, c))) ->
  exists res hp, oh_prepare e d h = Ok (res, hp) /\
  forall max_workers rnd q w m s, create_queue rnd (en_cats e) max_workers = (q, w) ->
    steps false (length (en_cats e)) (oh_job e (mp hp (r_maps (d_raw res))) res) m (pool_init q w hp) s -> ~ race s.
Proof.
  intros opt t0 e h d F HE W Ec Hall. destruct (oh_prepare_spec e h d W Hall Ec) as (res & hp & E & P). exists res, hp. split; [done|].
  intros mw rnd q w m s Eq Hst.
  set (rs := fun (_ : string) (a : addr) => a.1 < length (h_arr h)).
  set (ws := fun (c : string) (a : addr) => c ∈ en_cats e /\ exists n t, n ∈ en_new e /\ created e c n /\ mp hp (r_maps (d_raw res)) !! (KBool, n) = Some t /\ a.1 = s_arr t).
  eapply (C87_no_race_main _ false _ rs ws); [apply (ft_nodup _ _ _ HE)| | |exact Eq|exact Hst].
  - intros c Hc. unfold oh_job. destruct (cat_slice e h d W Hall res hp P c Hc) as (sl & Hs & Hsi). rewrite Hs. destruct (decide _); [constructor|].
    apply flag_loop_fp.
    + intros i Hi. destruct (Hsi i Hi) as (_ & Ha & _). done.
    + intros z nn t i Hz Ht Hi. split; [done|]. destruct (flag_new opt t0 e HE c z nn Hc Hz) as [Hn Hcr]. exists nn, t. done.
  - intros c c' a Hne [Hc (n & t & Hn & Hcr & Ht & Ha)]. destruct (flag_slice e h d W Hall Ec res hp P n Hn) as (t' & Ht' & Hr & _).
    rewrite Ht in Ht'. injection Ht' as <-. split; [unfold rs; lia|]. intros [Hc' (n' & t' & Hn' & Hcr' & Ht' & Ha')].
    destruct (decide (n' = n)) as [->|Hd].
    + apply Hne. by eapply (created_inj opt t0 e HE).
    + apply (pr_dist _ _ _ _ _ P n' n t' t Hn' Hn Hd Ht' Ht). congruence.
Qed.
End main.

Section wit.
Existing Instance ex_rt.
(** Two columns with the same storage, scaled by two workers. *)
Lemma C87_shared_storage_refuted_main : exists (h : heap) (d : dframe) (sc : scaler f64_arith) (m : nat) (s : pool unit),
  wf h d /\ steps true 2 (scale_job sc (mp h (r_maps (d_raw d))) d) m (pool_init ["a"; "b"] 2 h) s /\ race s.
Proof.
  exists c42_shared.2, c42_shared.1, c42_sc, 4, (c42_end [Some 0; Some 1; Some 0; Some 1]).
  split; [apply (wf_check_sound _ _ 1); by vm_compute|]. split.
  - apply (exec_steps true 2 c42_prog [Some 0; Some 1; Some 0; Some 1]). unfold c42_end. fold c42_start.
    assert (H : exec true 2 c42_prog [Some 0; Some 1; Some 0; Some 1] c42_start <> None) by (by vm_compute).
    by destruct (exec true 2 c42_prog [Some 0; Some 1; Some 0; Some 1] c42_start).
  - eexists 0, 1, _, _, _, _. split; [done|]. split; [vm_compute; reflexivity|]. split; [vm_compute; reflexivity|].
    split; [vm_compute; reflexivity|]. vm_compute. reflexivity.
Qed.
End wit.
