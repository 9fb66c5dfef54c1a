(** The maps that the workers of OneHotEncoder.Fit fill: C87. *)
From Verif Require Import P_Exec.
From Verif Require Import M_FitMaps P_FilesMain P_OneHotMain P_PrepMain P_PoolMain P_RaceMain P_FitMapsMain.
From stdpp Require Import strings list.
From Verif Require Import P_Base P_Check.

(** C87 The workers of OneHotEncoder.Fit do not race on the maps Categories and
    Fallback either, and fill them alike under every schedule. *)
Theorem C87_fit_maps : forall (rt : GoRT), forall (opt : oh_opt) (ord : string -> bool -> gset Z -> list Z) (cols : list string) (h : heap) (d : dframe),
  wf h d -> NoDup cols -> "" ∉ cols -> (forall c, c ∈ cols -> is_Some (t_cols (abs h d) !! (KInt, c))) ->
  let L := length (h_arr h) in
  let prog := fit_maps_job opt ord (mp h (r_maps (d_raw d))) d L cols in
  forall deferred max_workers rnd q w m s, create_queue rnd cols max_workers = (q, w) ->
    steps deferred (length cols) prog m (pool_init q w (new_maps cols h)) s ->
    ~ race s /\ p_crash s = false /\
    (* after Wait, the maps hold what was computed for each column *)
    (closed (length cols) s -> forall c, c ∈ cols ->
       h_arr (p_heap s) !! col_arr L cols c = Some (fitted_cells (fit_cats opt (ord c) c (t_ints (abs h d) c))) /\
       abs (p_heap s) d = abs h d).
Proof. intros rt. exact C87_fit_maps_main. Qed.
Print Assumptions C87_fit_maps.
Example C87_fit_maps_case : wf fm_df.2 fm_df.1 /\ NoDup fm_cols /\ "" ∉ fm_cols /\
  (forall c, c ∈ fm_cols -> is_Some (t_cols (abs fm_df.2 fm_df.1) !! (KInt, c))) /\
  fitted_cells (fit_cats fm_opt (fm_ord "a") "a" (t_ints (abs fm_df.2 fm_df.1) "a")) = [VInt 1; VObj (OStr "a_missing"); VObj (OStr "a_missing")].
Proof. exact C87_fit_maps_case_main. Qed.
(** The comment at one_hot.go:118: if every worker made the map of its column,
    they would race, whatever else they do. *)
Example C87_late_maps_case : forall (R : Type) (prog : string -> job R) (h : heap) (L : nat),
  let late (c : string) := JWr (L, 0) (VObj ONil) (prog c) in
  exists s, steps true 2 late 2 (pool_init ["a"; "b"] 2 h) s /\ race s.
Proof. exact C87_late_maps_case_main. Qed.
