(** The worker pool: the property theorems C41 - C43. A step of the transition
    system (M_Pool.v) is one channel operation or one memory access of one
    goroutine; [steps m s s'] quantifies over all interleavings. *)
From Verif Require Import P_PoolMain.
Local Existing Instance ex_rt.

(** C41 Each key goes to one worker and is notified once; nothing blocks and
    nothing is sent on a closed channel, for all interleavings, provided that no
    key is empty and there is a worker. *)
Theorem C41_create_queue : forall (rnd : nat -> nat) (keys : list string) (max_workers : Z),
  let '(q, w) := create_queue rnd keys max_workers in
  q ≡ₚ keys /\
  (1 <= w <-> keys = [] \/ 1 <= max_workers)%Z /\
  (keys <> [] -> w <= max_workers /\ w <= Z.of_nat (length keys))%Z.
Proof. exact C41_create_queue_main. Qed.
Print Assumptions C41_create_queue.
Theorem C41_every_key_once_partial : forall (R : Type) (deferred : bool) (prog : string -> job R) (rnd : nat -> nat)
    (keys : list string) (max_workers : Z) (h : heap) (q : list string) (w : Z) (m : nat) (s : pool R),
  "" ∉ keys -> create_queue rnd keys max_workers = (q, w) ->
  steps deferred (length keys) prog m (pool_init q w h) s ->
  (* a key is in the queue or has been given to one worker *)
  concat (w_log <$> p_ws s) ++ p_q s ≡ₚ keys /\
  (* no key is notified twice *)
  (p_got s).*1 ⊆+ keys /\
  (* at the end *)
  (closed (length keys) s ->
     (p_got s).*1 ≡ₚ keys /\ concat (w_log <$> p_ws s) ≡ₚ keys /\ p_chan s = [] /\
     forall i x, p_ws s !! i = Some x -> w_def x = [] /\ (w_st x = WNext \/ w_st x = WExit)) /\
  (* until the end, some goroutine can move *)
  ((1 <= max_workers)%Z -> p_crash s = false -> ~ closed (length keys) s ->
     exists s', step deferred (length keys) prog s s') /\
  (* the end comes *)
  (forall D, (forall k, k ∈ keys -> jdepth D (prog k)) -> m <= (D + 4) * length keys + Z.to_nat w + 1).
Proof. exact C41_every_key_once_partial_main. Qed.
Print Assumptions C41_every_key_once_partial.
Example C41_case :
  create_queue (fun _ => 0) ["a"; "bb"; "ccc"] 2 = (["bb"; "ccc"; "a"], 2%Z) /\
  exists s, steps true 3 c41_prog 1 (pool_init ["bb"; "ccc"; "a"] 2 heap0) s /\ p_q s = ["ccc"; "a"].
Proof. exact C41_check_main. Qed.
(** Otherwise it blocks for ever. *)
Theorem C41_empty_key_blocks : forall (R : Type) (deferred : bool) (prog : string -> job R) (rnd : nat -> nat)
    (keys : list string) (max_workers : Z) (h : heap) (q : list string) (w : Z) (m : nat) (s : pool R),
  "" ∈ keys -> create_queue rnd keys max_workers = (q, w) ->
  steps deferred (length keys) prog m (pool_init q w h) s -> ~ closed (length keys) s.
Proof. exact C41_empty_key_blocks_main. Qed.
Print Assumptions C41_empty_key_blocks.
Theorem C41_no_worker_blocks : forall (R : Type) (deferred : bool) (prog : string -> job R) (rnd : nat -> nat)
    (keys : list string) (max_workers : Z) (h : heap) (q : list string) (w : Z) (m : nat) (s : pool R),
  keys <> [] -> (max_workers <= 0)%Z -> create_queue rnd keys max_workers = (q, w) ->
  steps deferred (length keys) prog m (pool_init q w h) s ->
  ~ closed (length keys) s /\ forall s', ~ step deferred (length keys) prog s s'.
Proof. exact C41_no_worker_blocks_main. Qed.
Print Assumptions C41_no_worker_blocks.
Theorem C41_deadlock_refuted : exists (keys : list string) (max_workers : Z) (s : pool nat),
  (1 <= max_workers)%Z /\
  steps false (length keys) c41_prog 1 (pool_init (create_queue id keys max_workers).1 (create_queue id keys max_workers).2 heap0) s /\
  p_crash s = false /\ ~ closed (length keys) s /\ forall s', ~ step false (length keys) c41_prog s s'.
Proof. exact C41_deadlock_refuted_main. Qed.
Print Assumptions C41_deadlock_refuted.

(** C42 The result does not depend on the schedule. *)
Theorem C42_schedules_agree_partial : forall (R : Type) (deferred : bool) (prog : string -> job R) (rs ws : string -> addr -> Prop)
    (rnd : nat -> nat) (keys : list string) (max_workers : Z) (h : heap) (q : list string) (w : Z) (m : nat) (s : pool R)
    (results : list (string * R)) (h' : heap),
  NoDup keys -> "" ∉ keys ->
  (* the jobs of different keys touch no common cell, except for reading *)
  (forall k, k ∈ keys -> fp (rs k) (ws k) (prog k)) ->
  (forall k k' a, k <> k' -> ws k a -> ~ rs k' a /\ ~ ws k' a) ->
  (* one after the other, in the given order, they succeed *)
  seq_all ((fun k => (k, prog k)) <$> keys) h = Some (results, h') ->
  create_queue rnd keys max_workers = (q, w) ->
  steps deferred (length keys) prog m (pool_init q w h) s ->
  p_crash s = false /\ (closed (length keys) s -> p_heap s = h' /\ p_got s ≡ₚ results).
Proof. exact C42_schedules_agree_partial_main. Qed.
Print Assumptions C42_schedules_agree_partial.
Theorem C42_hash_strings_view_partial : forall (h : heap) (d : dframe) (cols : list string),
  wf h d -> cols <> [] -> NoDup cols -> "" ∉ cols ->
  (forall c, c ∈ cols -> is_Some (t_cols (abs h d) !! (KObj, c))) ->
  (exists k, is_Some (t_cols (abs h d) !! k) /\ k.2 ∉ cols) ->
  (1 <= actual_max_cpu (d_raw d))%Z ->
  exists v h2 h', hash_prepare d cols h = Ok (v, h2) /\
    (* what it computes when the columns are processed in turn *)
    hash_strings_view d cols h = Ok (v, h') /\ abs h' v = t_hash cols (abs h d) /\
    let prog := hash_job (mp h2 (r_maps (d_raw d))) (mp h2 (r_maps (d_raw v))) d in
    forall rnd q w m s, create_queue rnd cols (actual_max_cpu (d_raw d)) = (q, w) ->
      steps true (length cols) prog m (pool_init q w h2) s ->
      m <= (2 * num_rows d + 4) * length cols + Z.to_nat w + 1 /\
      p_crash s = false /\
      (closed (length cols) s -> p_heap s = h') /\
      (~ closed (length cols) s -> exists s', step true (length cols) prog s s').
Proof. exact C42_hash_strings_view_partial_main. Qed.
Print Assumptions C42_hash_strings_view_partial.
Example C42_case : wf c42_f.2 c42_f.1 /\ (1 <= actual_max_cpu (d_raw c42_f.1))%Z /\
  is_Some (t_cols (abs c42_f.2 c42_f.1) !! (KObj, "s")) /\ is_Some (t_cols (abs c42_f.2 c42_f.1) !! (KObj, "t")) /\
  is_Some (t_cols (abs c42_f.2 c42_f.1) !! (KInt, "k")).
Proof. exact C42_check_main. Qed.

(** C43 FromCSVFilePattern has a worker iff there are fewer than n(n+1) CPUs for
    its n files; otherwise it never returns. *)
Theorem C43_pattern_workers_partial : forall (max_cpu_opt ncpu files : Z), (1 <= ncpu)%Z -> (2 <= files)%Z ->
  let '(per_file, workers) := pattern_workers max_cpu_opt ncpu files in
  let cpu := if decide (max_cpu_opt <= 0)%Z then ncpu else max_cpu_opt in
  (1 <= per_file)%Z /\
  ((1 <= workers)%Z <-> (cpu < files * (files + 1))%Z) /\
  (workers * per_file <= files)%Z.
Proof. exact C43_pattern_workers_partial_main. Qed.
Print Assumptions C43_pattern_workers_partial.
Example C43_case : pattern_workers 0 5 2 = (2, 1)%Z /\ pattern_workers 3 16 4 = (1, 4)%Z.
Proof. exact C43_check_main. Qed.
Theorem C43_hangs : forall (R : Type) (prog : string -> job R) (max_cpu_opt ncpu : Z) (rnd : nat -> nat) (paths : list string)
    (h : heap) (q : list string) (w : Z) (m : nat) (s : pool R),
  (1 <= ncpu)%Z -> 2 <= length paths ->
  let cpu := if decide (max_cpu_opt <= 0)%Z then ncpu else max_cpu_opt in
  (Z.of_nat (length paths) * (Z.of_nat (length paths) + 1) <= cpu)%Z ->
  create_queue rnd paths (pattern_workers max_cpu_opt ncpu (Z.of_nat (length paths))).2 = (q, w) ->
  steps false (length paths) prog m (pool_init q w h) s ->
  ~ closed (length paths) s /\ forall s', ~ step false (length paths) prog s s'.
Proof. exact C43_hangs_main. Qed.
Print Assumptions C43_hangs.
Theorem C43_at_least_one_worker_refuted : exists (ncpu : Z) (paths : list string),
  paths <> [] /\ (1 <= ncpu)%Z /\
  (create_queue id paths (pattern_workers 0 ncpu (Z.of_nat (length paths))).2).2 = 0%Z.
Proof. exact C43_at_least_one_worker_refuted_main. Qed.
Print Assumptions C43_at_least_one_worker_refuted.
