(** No data race in the worker pools: C87. *)
From Verif Require Import P_Exec.
From Verif Require Import P_FilesMain P_OneHotMain P_PrepMain P_PoolMain P_RaceMain P_Check.

(** C87 For jobs whose footprints are disjoint, no schedule reaches a state in
    which two workers are about to access the same cell and one of them to write. *)
Theorem C87_no_race : forall (R : Type) (deferred : bool) (prog : string -> job R) (rs ws : string -> addr -> Prop)
    (rnd : nat -> nat) (keys : list string) (max_workers : Z) (h : heap) (q : list string) (w : Z) (m : nat) (s : pool R),
  NoDup keys ->
  (forall k, k ∈ keys -> fp (rs k) (ws k) (prog k)) ->
  (forall k k' a, k <> k' -> ws k a -> ~ rs k' a /\ ~ ws k' a) ->
  create_queue rnd keys max_workers = (q, w) ->
  steps deferred (length keys) prog m (pool_init q w h) s -> ~ race s.
Proof. exact C87_no_race_main. Qed.
Print Assumptions C87_no_race.
(** HashStringsView (view.go:331-384). *)
Theorem C87_hash_strings_view : forall (rt : GoRT), forall (h : heap) (d : dframe) (cols : list string),
  wf h d -> cols <> [] -> NoDup cols ->
  (forall c, c ∈ cols -> is_Some (t_cols (abs h d) !! (KObj, c))) ->
  (exists k, is_Some (t_cols (abs h d) !! k) /\ k.2 ∉ cols) ->
  exists v h2, hash_prepare d cols h = Ok (v, h2) /\
    forall max_workers rnd q w m s, create_queue rnd cols max_workers = (q, w) ->
      steps true (length cols) (hash_job (mp h2 (r_maps (d_raw d))) (mp h2 (r_maps (d_raw v))) d) m (pool_init q w h2) s -> ~ race s.
Proof. intros rt. exact C87_hash_strings_view_main. Qed.
Print Assumptions C87_hash_strings_view.
(** Fit of Scaler, FloatImputer and OneHotEncoder. *)
Theorem C87_fit : forall (rt : GoRT), forall (h : heap) (d : dframe) (opt : scaler_opt) (ohopt : oh_opt) (ord : string -> bool -> gset Z -> list Z)
    (cols : list string) (deferred : bool) (max_workers : Z) (rnd : nat -> nat) (q : list string) (w : Z) (m : nat),
  NoDup cols -> create_queue rnd cols max_workers = (q, w) ->
  (forall s, steps deferred (length cols) (fit_job (fit_col f64_arith opt) (mp h (r_maps (d_raw d))) d) m (pool_init q w h) s -> ~ race s) /\
  (forall s, steps deferred (length cols) (fit_job (mean_of f64_arith) (mp h (r_maps (d_raw d))) d) m (pool_init q w h) s -> ~ race s) /\
  (forall s, steps deferred (length cols) (oh_fit_job ohopt ord (mp h (r_maps (d_raw d))) d) m (pool_init q w h) s -> ~ race s).
Proof. intros rt. exact C87_fit_main. Qed.
Print Assumptions C87_fit.
(** Scaler.TransformInplace (scaler.go:116-150). *)
Theorem C87_scale : forall (rt : GoRT), forall (order : gset string -> list string) (sc : scaler f64_arith) (h : heap) (d : dframe),
  (forall X, order X ≡ₚ elements X) -> own_cells h d (spec_cols sc) ->
  let keys := order (spec_cols sc) in
  forall deferred max_workers rnd q w m s, create_queue rnd keys max_workers = (q, w) ->
    steps deferred (length keys) (scale_job sc (mp h (r_maps (d_raw d))) d) m (pool_init q w h) s -> ~ race s.
Proof. intros rt. exact C87_scale_main. Qed.
Print Assumptions C87_scale.
(** OneHotEncoder.TransformView (one_hot.go:162-224). *)
Theorem C87_one_hot : forall (rt : GoRT), forall (opt : oh_opt) t0 (e : encoder) (h : heap) (d : dframe),
  fixed opt -> fitted opt t0 e -> wf h d -> en_cats e <> [] ->
  (forall c, c ∈ en_cats e -> is_Some (t_cols (abs h d) !! (KInt, c))) ->
  exists res hp, oh_prepare e d h = Ok (res, hp) /\
  forall max_workers rnd q w m s, create_queue rnd (en_cats e) max_workers = (q, w) ->
    steps false (length (en_cats e)) (oh_job e (mp hp (r_maps (d_raw res))) res) m (pool_init q w hp) s -> ~ race s.
Proof. intros rt. exact C87_one_hot_main. Qed.
Print Assumptions C87_one_hot.
Section cases.
Local Existing Instance ex_rt.
Example C87_case : wf c42_f.2 c42_f.1 /\ NoDup ["s"; "t"] /\
  (forall c, c ∈ ["s"; "t"] -> is_Some (t_cols (abs c42_f.2 c42_f.1) !! (KObj, c))) /\
  (exists k, is_Some (t_cols (abs c42_f.2 c42_f.1) !! k) /\ k.2 ∉ ["s"; "t"]).
Proof.
  destruct C42_check_main as (W & _ & S & T & K). split; [done|]. split.
  { apply NoDup_cons; split; [set_solver|apply NoDup_singleton]. }
  split.
  - intros c [->|[->|Hc]%elem_of_cons]%elem_of_cons; [done|done|]. by apply elem_of_nil in Hc.
  - exists (KInt, "k"). split; [done|]. set_solver.
Qed.
Theorem C87_shared_storage_refuted : exists (h : heap) (d : dframe) (sc : scaler f64_arith) (m : nat) (s : pool unit),
  wf h d /\ steps true 2 (scale_job sc (mp h (r_maps (d_raw d))) d) m (pool_init ["a"; "b"] 2 h) s /\ race s.
Proof. exact C87_shared_storage_refuted_main. Qed.
Print Assumptions C87_shared_storage_refuted.
End cases.
