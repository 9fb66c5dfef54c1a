(** The worker pool: C41 - C43. *)
From Verif Require Export P_PoolHash P_ReadMain.

Lemma C41_create_queue_main : forall (rnd : nat -> nat) (keys : list string) (max_workers : Z),
  let '(q, w) := create_queue rnd keys max_workers in
  q ≡ₚ keys /\
  (1 <= w <-> keys = [] \/ 1 <= max_workers)%Z /\
  (keys <> [] -> w <= max_workers /\ w <= Z.of_nat (length keys))%Z.
Proof.
  intros rnd keys mw. unfold create_queue. destruct (decide (length keys = 0)) as [H0|H0].
  - apply nil_length_inv in H0 as ->. split; [done|]. split; [split; [by left|done]|done].
  - assert (Hne : keys <> []) by (intros ->; done). destruct (decide _) as [H1|H1].
    + split; [done|]. split; [|lia]. split; [|lia]. intros _. right. lia.
    + split; [apply shuffle_keys, shuffle_perm|]. split; [|lia]. split; [by right|by intros [?|?]].
Qed.

Lemma queue_length rnd keys mw q w : create_queue rnd keys mw = (q, w) -> length q = length keys /\ ("" ∉ keys -> "" ∉ q).
Proof. intros E. pose proof (C41_create_queue_main rnd keys mw) as H. rewrite E in H. destruct H as (-> & _). done. Qed.

Lemma C41_every_key_once_partial_main : forall (R : Type) (deferred : bool) (prog : string -> job R) (rnd : nat -> nat)
    (keys : list string) (max_workers : Z) (h : heap) (q : list string) (w : Z) (m : nat) (s : pool R),
  "" ∉ keys -> create_queue rnd keys max_workers = (q, w) ->
  steps deferred (length keys) prog m (pool_init q w h) s ->
  (* a key is in the queue or has been given to one worker *)
  concat (w_log <$> p_ws s) ++ p_q s ≡ₚ keys /\
  (* no key is notified twice *)
  (p_got s).*1 ⊆+ keys /\
  (* at the end *)
  (closed (length keys) s ->
     (p_got s).*1 ≡ₚ keys /\ concat (w_log <$> p_ws s) ≡ₚ keys /\ p_chan s = [] /\
     forall i x, p_ws s !! i = Some x -> w_def x = [] /\ (w_st x = WNext \/ w_st x = WExit)) /\
  (* until the end, some goroutine can move *)
  ((1 <= max_workers)%Z -> p_crash s = false -> ~ closed (length keys) s ->
     exists s', step deferred (length keys) prog s s') /\
  (* the end comes *)
  (forall D, (forall k, k ∈ keys -> jdepth D (prog k)) -> m <= (D + 4) * length keys + Z.to_nat w + 1).
Proof.
  intros R deferred prog rnd keys mw h q w m s He Eq Hs.
  pose proof (C41_create_queue_main rnd keys mw) as HQ. rewrite Eq in HQ. destruct HQ as (Hp & Hw & _).
  assert (Hl : length q = length keys) by (by rewrite Hp). assert (He' : "" ∉ q) by (by rewrite Hp).
  pose proof (steps_cinv _ _ _ _ _ _ _ _ He' Hs) as C. split; [rewrite (ci_part _ _ _ C); exact Hp|].
  split.
  { rewrite <- Hp, <- (ci_keys _ _ _ C). rewrite <- !app_assoc. apply submseteq_inserts_r. done. }
  split; [|split].
  - intros Hc. destruct (cinv_complete (length keys) q _ s Hl C Hc) as (E1 & E2 & E3 & E4 & E5 & E6).
    split; [by rewrite E5|]. split; [by rewrite E6|]. split; [done|]. intros i x Hx.
    destruct (concat_at w_pend _ _ _ Hx) as (A & B & P & _). unfold pend in E3. rewrite E3 in P.
    symmetry in P. apply app_nil in P as [_ [P _]%app_nil]. apply app_nil in P as [P1 P2].
    destruct (concat_at w_run _ _ _ Hx) as (A' & B' & P' & _). unfold running in E2. rewrite E2 in P'.
    symmetry in P'. apply app_nil in P' as [_ [P' _]%app_nil]. split; [done|].
    destruct x as [[] dl lg]; simpl in *; try done; auto.
  - intros Hm Hc Hn. eapply cinv_progress; [exact Hl|done| |exact C|done|done]. assert (1 <= w)%Z by (apply Hw; by right). lia.
  - intros D HD. destruct (steps_meas deferred (length keys) prog D q w h m s) as (t & _ & Ht); [|done|rewrite Hl in Ht; lia].
    intros k Hk. apply HD. by rewrite <- Hp.
Qed.

(** Three keys, two workers. *)
Definition c41_prog (k : string) : job nat := JRet (String.length k).
Lemma C41_check_main :
  create_queue (fun _ => 0) ["a"; "bb"; "ccc"] 2 = (["bb"; "ccc"; "a"], 2%Z) /\
  exists s, steps true 3 c41_prog 1 (pool_init ["bb"; "ccc"; "a"] 2 heap0) s /\ p_q s = ["ccc"; "a"].
Proof.
  split; [by vm_compute|]. eexists. split.
  - eapply steps_S; [constructor|]. eapply (s_next _ _ _ _ 1); [done|done|done|done].
  - done.
Qed.

(** An empty key: Results or Wait never returns. *)
Lemma C41_empty_key_blocks_main : forall (R : Type) (deferred : bool) (prog : string -> job R) (rnd : nat -> nat)
    (keys : list string) (max_workers : Z) (h : heap) (q : list string) (w : Z) (m : nat) (s : pool R),
  "" ∈ keys -> create_queue rnd keys max_workers = (q, w) ->
  steps deferred (length keys) prog m (pool_init q w h) s -> ~ closed (length keys) s.
Proof.
  intros R deferred prog rnd keys mw h q w m s He Eq Hs.
  pose proof (C41_create_queue_main rnd keys mw) as HQ. rewrite Eq in HQ. destruct HQ as (Hp & _).
  eapply (einv_open _ q); [by rewrite Hp|by rewrite Hp|]. by eapply steps_einv.
Qed.
Lemma C41_no_worker_blocks_main : forall (R : Type) (deferred : bool) (prog : string -> job R) (rnd : nat -> nat)
    (keys : list string) (max_workers : Z) (h : heap) (q : list string) (w : Z) (m : nat) (s : pool R),
  keys <> [] -> (max_workers <= 0)%Z -> create_queue rnd keys max_workers = (q, w) ->
  steps deferred (length keys) prog m (pool_init q w h) s ->
  ~ closed (length keys) s /\ forall s', ~ step deferred (length keys) prog s s'.
Proof.
  intros R deferred prog rnd keys mw h q w m s Hk Hm Eq Hs.
  pose proof (C41_create_queue_main rnd keys mw) as HQ. rewrite Eq in HQ. destruct HQ as (Hp & Hw & _).
  assert (Hw0 : Z.to_nat w = 0).
  { destruct (decide (1 <= w)%Z) as [H1|]; [|lia]. apply Hw in H1 as [?|?]; [done|lia]. }
  assert (Hst : forall s', ~ step deferred (length keys) prog (pool_init q w h) s').
  { intros s' Hst. unfold pool_init in Hst. rewrite Hw0 in Hst. inversion Hst; subst; simpl in *; rewrite ?lookup_nil in *; done. }
  assert (s = pool_init q w h) as ->.
  { remember (pool_init q w h) as s0 eqn:E0. induction Hs as [s|m s1 s2 s3 H IH Hs]; [done|].
    rewrite (IH E0 Hst) in Hs. by destruct (Hst s3). }
  split; [|done]. unfold closed. simpl. destruct keys; [done|]. simpl. lia.
Qed.
(** One worker, one empty key: after one move nothing can move. *)
Lemma C41_deadlock_refuted_main : exists (keys : list string) (max_workers : Z) (s : pool nat),
  (1 <= max_workers)%Z /\
  steps false (length keys) c41_prog 1 (pool_init (create_queue id keys max_workers).1 (create_queue id keys max_workers).2 heap0) s /\
  p_crash s = false /\ ~ closed (length keys) s /\ forall s', ~ step false (length keys) c41_prog s s'.
Proof.
  exists [""], 1%Z, (Pool [] [Worker WExit [] []] [] [] heap0 false).
  split; [done|]. split.
  { replace (create_queue id [""] 1) with ([""], 1%Z) by (by vm_compute).
    eapply steps_S; [constructor|]. eapply (s_empty _ _ _ (pool_init [""] 1 heap0) 0); done. }
  split; [done|]. split; [unfold closed; simpl; lia|].
  intros s' Hs. inversion Hs; subst; simpl in *;
    try match goal with H : [_] !! ?i = Some _ |- _ => destruct i as [|[]]; simpl in H; congruence end; done.
Qed.

(** ** C42 *)
Lemma C42_schedules_agree_partial_main : forall (R : Type) (deferred : bool) (prog : string -> job R) (rs ws : string -> addr -> Prop)
    (rnd : nat -> nat) (keys : list string) (max_workers : Z) (h : heap) (q : list string) (w : Z) (m : nat) (s : pool R)
    (results : list (string * R)) (h' : heap),
  NoDup keys -> "" ∉ keys ->
  (* the jobs of different keys touch no common cell, except for reading *)
  (forall k, k ∈ keys -> fp (rs k) (ws k) (prog k)) ->
  (forall k k' a, k <> k' -> ws k a -> ~ rs k' a /\ ~ ws k' a) ->
  (* one after the other, in the given order, they succeed *)
  seq_all ((fun k => (k, prog k)) <$> keys) h = Some (results, h') ->
  create_queue rnd keys max_workers = (q, w) ->
  steps deferred (length keys) prog m (pool_init q w h) s ->
  p_crash s = false /\ (closed (length keys) s -> p_heap s = h' /\ p_got s ≡ₚ results).
Proof.
  intros R deferred prog rs ws rnd keys mw h q w m s rs0 h' Hnd He Hfp Hni Hseq Eq Hs.
  pose proof (C41_create_queue_main rnd keys mw) as HQ. rewrite Eq in HQ. destruct HQ as (Hp & _).
  assert (Hni' : no_interference rs ws).
  { intros k k' Hkk a. split; intros Hw; eapply Hni; [done|done|by apply not_eq_sym|done]. }
  assert (Hk : ((fun k => (k, prog k)) <$> keys).*1 = keys) by apply jobs_keys.
  assert (Hf : fps rs ws ((fun k => (k, prog k)) <$> keys)).
  { apply Forall_fmap, Forall_forall. intros k Hk'. by apply Hfp. }
  destruct (seq_all_perm rs ws ((fun k => (k, prog k)) <$> keys) ((fun k => (k, prog k)) <$> q) Hni') with (h := h) (ns := rs0) (h' := h') as (rs1 & E1 & P1);
    [by rewrite Hp|done|by rewrite Hk|done|].
  assert (M : minv prog rs ws rs1 h' s).
  { eapply (steps_minv deferred (length keys) prog rs ws q w h m s); [done|by rewrite Hp|by rewrite Hp|by rewrite Hp|done| |done].
    unfold fps in *. by rewrite Hp. }
  destruct M as [M1 (ns & M2 & M3) M4]. split; [done|]. intros Hc.
  destruct (cinv_complete (length keys) q (Z.to_nat w) s) as (F1 & F2 & F3 & F4 & _); [by rewrite Hp| |done|].
  { eapply steps_cinv; [by rewrite Hp|exact Hs]. }
  rewrite F1, F2 in M2. simpl in M2. injection M2 as M2 M2'. rewrite <- M2, F3, F4 in M3. rewrite !app_nil_r in M3.
  split; [done|]. by rewrite M3.
Qed.

Section frame.
Context {rt : GoRT}.
Lemma C42_hash_strings_view_partial_main : forall (h : heap) (d : dframe) (cols : list string),
  wf h d -> cols <> [] -> NoDup cols -> "" ∉ cols ->
  (forall c, c ∈ cols -> is_Some (t_cols (abs h d) !! (KObj, c))) ->
  (exists k, is_Some (t_cols (abs h d) !! k) /\ k.2 ∉ cols) ->
  (1 <= actual_max_cpu (d_raw d))%Z ->
  exists v h2 h', hash_prepare d cols h = Ok (v, h2) /\
    (* what it computes when the columns are processed in turn *)
    hash_strings_view d cols h = Ok (v, h') /\ abs h' v = t_hash cols (abs h d) /\
    let prog := hash_job (mp h2 (r_maps (d_raw d))) (mp h2 (r_maps (d_raw v))) d in
    forall rnd q w m s, create_queue rnd cols (actual_max_cpu (d_raw d)) = (q, w) ->
      steps true (length cols) prog m (pool_init q w h2) s ->
      m <= (2 * num_rows d + 4) * length cols + Z.to_nat w + 1 /\
      p_crash s = false /\
      (closed (length cols) s -> p_heap s = h') /\
      (~ closed (length cols) s -> exists s', step true (length cols) prog s s').
Proof.
  intros h d cols W Hc Hnd He Hobj Hk Hcpu.
  destruct (hash_prepare_spec h d cols W Hc Hobj Hk) as (v & h2 & h3 & E1 & E2 & E3 & Hni & Hf).
  destruct (hash_strings_view_spec h d cols W Hc Hobj Hk) as (v' & h3' & E2' & _ & _ & Ha).
  assert (v' = v /\ h3' = h3) as [-> ->] by (split; congruence).
  exists v, h2, h3. do 3 (split; [done|]). intros prog rnd q w m s Eq Hs.
  destruct (C41_every_key_once_partial_main _ _ _ _ _ _ _ _ _ _ _ He Eq Hs) as (_ & _ & _ & Hpr & Hb).
  destruct (C42_schedules_agree_partial_main _ true prog (hash_rs (mp h2 (r_maps (d_raw d))) d cols)
    (hash_ws (mp h2 (r_maps (d_raw v))) d cols) rnd cols (actual_max_cpu (d_raw d)) h2 q w m s ((fun c => (c, tt)) <$> cols) h3 Hnd He) as [F1 F2]; [| |exact E3|exact Eq|exact Hs|].
  { intros k Hk'. unfold fps in Hf. rewrite Forall_fmap, Forall_forall in Hf. by apply Hf. }
  { intros k k' a Hkk Hw. exact (proj1 (Hni k k' Hkk a) Hw). }
  split; [|split; [done|split]].
  - apply Hb. intros k _. destruct W as [n W]. rewrite <- (wfn_inds_length _ _ _ W). apply map_job_depth.
  - intros Hcl. by apply F2.
  - intros Hcl. by apply Hpr.
Qed.
End frame.

(** Two string columns and one more, two workers. *)
Section wit.
Existing Instance ex_rt.
Definition c42_f := mk_df heap0 [(KObj, "s", [VObj (OStr "x"); VObj ONil]); (KObj, "t", [VObj (OStr "y"); VObj (OStr "")]);
  (KInt, "k", [VInt 1; VInt 2])] ["s"; "t"].
Lemma C42_check_main : wf c42_f.2 c42_f.1 /\ (1 <= actual_max_cpu (d_raw c42_f.1))%Z /\
  is_Some (t_cols (abs c42_f.2 c42_f.1) !! (KObj, "s")) /\ is_Some (t_cols (abs c42_f.2 c42_f.1) !! (KObj, "t")) /\
  is_Some (t_cols (abs c42_f.2 c42_f.1) !! (KInt, "k")).
Proof.
  split; [apply (wf_check_sound _ _ 2); by vm_compute|]. split; [by vm_compute|].
  do 2 (split; [by vm_compute; eexists|]). by vm_compute; eexists.
Qed.
End wit.

(** ** C43 *)
Lemma C43_pattern_workers_partial_main : forall (max_cpu_opt ncpu files : Z), (1 <= ncpu)%Z -> (2 <= files)%Z ->
  let '(per_file, workers) := pattern_workers max_cpu_opt ncpu files in
  let cpu := if decide (max_cpu_opt <= 0)%Z then ncpu else max_cpu_opt in
  (1 <= per_file)%Z /\
  ((1 <= workers)%Z <-> (cpu < files * (files + 1))%Z) /\
  (workers * per_file <= files)%Z.
Proof.
  intros o n f Hn Hf. unfold pattern_workers. cbv zeta.
  set (cpu := if decide (o <= 0)%Z then n else o). assert (Hc : (1 <= cpu)%Z) by (unfold cpu; destruct (decide _); lia).
  rewrite Z.quot_div_nonneg by lia.
  assert (Hq : (0 <= cpu / f)%Z) by (apply Z.div_pos; lia).
  pose proof (Z.div_mod cpu f ltac:(lia)) as Hd. pose proof (Z.mod_pos_bound cpu f ltac:(lia)) as Hm.
  destruct (decide (cpu / f = 0)%Z) as [E|E].
  - rewrite Z.quot_1_r. split; [done|]. split; [|lia]. split; [nia|lia].
  - rewrite Z.quot_div_nonneg by lia. split; [lia|].
    pose proof (Z.div_mod f (cpu / f) ltac:(lia)) as Hd2. pose proof (Z.mod_pos_bound f (cpu / f) ltac:(lia)) as Hm2.
    split; [split; intros H|].
    + destruct (decide (cpu / f <= f)%Z); [nia|]. rewrite Z.div_small in H; lia.
    + apply Z.div_le_lower_bound; [lia|]. assert (cpu / f < f + 1)%Z; [|lia]. apply Z.div_lt_upper_bound; lia.
    + nia.
Qed.
(** With too many CPUs it never ends. *)
Lemma C43_hangs_main : forall (R : Type) (prog : string -> job R) (max_cpu_opt ncpu : Z) (rnd : nat -> nat) (paths : list string)
    (h : heap) (q : list string) (w : Z) (m : nat) (s : pool R),
  (1 <= ncpu)%Z -> 2 <= length paths ->
  let cpu := if decide (max_cpu_opt <= 0)%Z then ncpu else max_cpu_opt in
  (Z.of_nat (length paths) * (Z.of_nat (length paths) + 1) <= cpu)%Z ->
  create_queue rnd paths (pattern_workers max_cpu_opt ncpu (Z.of_nat (length paths))).2 = (q, w) ->
  steps false (length paths) prog m (pool_init q w h) s ->
  ~ closed (length paths) s /\ forall s', ~ step false (length paths) prog s s'.
Proof.
  intros R prog o n rnd paths h q w m s Hn Hp cpu Hc Eq Hs.
  pose proof (C43_pattern_workers_partial_main o n (Z.of_nat (length paths)) Hn ltac:(lia)) as H.
  destruct (pattern_workers o n (Z.of_nat (length paths))) as [pf wk] eqn:E. fold cpu in H. destruct H as (_ & H & _).
  eapply C41_no_worker_blocks_main; [by intros ->; simpl in Hp; lia| |exact Eq|exact Hs]. simpl.
  destruct (decide (1 <= wk)%Z) as [H1|]; [|lia]. apply H in H1. lia.
Qed.
(** Two files, six CPUs. *)
Lemma C43_at_least_one_worker_refuted_main : exists (ncpu : Z) (paths : list string),
  paths <> [] /\ (1 <= ncpu)%Z /\
  (create_queue id paths (pattern_workers 0 ncpu (Z.of_nat (length paths))).2).2 = 0%Z.
Proof. exists 6%Z, ["a.csv"; "b.csv"]. split; [done|]. split; [done|]. by vm_compute. Qed.
Lemma C43_check_main : pattern_workers 0 5 2 = (2, 1)%Z /\ pattern_workers 3 16 4 = (1, 4)%Z.
Proof. by vm_compute. Qed.
