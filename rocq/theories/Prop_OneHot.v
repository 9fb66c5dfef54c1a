(** One-hot encoding: the property theorems C55 - C57. The specification is in
    Spec_OneHot.v. *)
From Verif Require Import P_OneHotMain.

(** C55 Fit, in any iteration order of the maps, and with any schedule of the
    workers; then TransformView. *)
Theorem C55_fit : forall order (Horder : forall X, order X ≡ₚ elements X) ord (Hord : forall c b X, ord c b X ≡ₚ elements X) opt d h, wf h d ->
  match oh_fit order ord (oh_fix opt) d h with
  | Ok (e, h') => h' = h /\ fitted (oh_fix opt) (abs h d) e
  | Panic => exists c, is_Some (t_cols (abs h d) !! (KInt, c)) /\ no_fallback (oh_fix opt) (t_ints (abs h d) c)
  end.
Proof.
  intros order Ho ord Hord opt d h W. pose proof (C55_fit_main order Ho ord Hord opt d h W) as H.
  pose proof (C57_fit_partial_main order Ho ord Hord opt d h W) as [HP _].
  destruct (oh_fit order ord (oh_fix opt) d h) as [[e h']|]; [exact H|]. by apply HP.
Qed.
Print Assumptions C55_fit.
Theorem C55_fit_schedules : forall order (Horder : forall X, order X ≡ₚ elements X) ord (Hord : forall c b X, ord c b X ≡ₚ elements X) opt d h, wf h d -> (1 <= actual_max_cpu (d_raw d))%Z -> t_cols (abs h d) !! (KInt, "") = None ->
  let cols := order (names_of KInt (mp h (r_maps (d_raw d)))) in
  forall rnd q w m s, create_queue rnd cols (actual_max_cpu (d_raw d)) = (q, w) ->
    let prog := oh_fit_job opt ord (mp h (r_maps (d_raw d))) d in
    steps true (length cols) prog m (pool_init q w h) s ->
    m <= (num_rows d + 4) * length cols + Z.to_nat w + 1 /\ p_crash s = false /\
    (closed (length cols) s -> oh_collect order opt cols (p_got s) (p_heap s) = oh_fit order ord opt d h) /\
    (~ closed (length cols) s -> exists s', step true (length cols) prog s s').
Proof. exact C55_fit_schedules_main. Qed.
Print Assumptions C55_fit_schedules.
Theorem C55_transform : forall (rt : GoRT), forall opt t0 e h d, fixed opt -> fitted opt t0 e -> wf h d -> drop_safe e (abs h d) ->
  match oh_transform e d h with
  | Ok (Some v, h') => wf h' v /\ encoded e (abs h d) (abs h' v) /\ preserved h h' /\ ~ refused_in opt t0 e (abs h d)
  | Ok (None, h') => preserved h h' /\ refused_in opt t0 e (abs h d)
  | Panic => exists c, c ∈ en_cats e /\ t_cols (abs h d) !! (KInt, c) = None
  end.
Proof. intros rt. exact C55_transform_main. Qed.
Print Assumptions C55_transform.
Theorem C55_one_flag : forall (rt : GoRT), forall order (Horder : forall X, order X ≡ₚ elements X) ord (Hord : forall c b X, ord c b X ≡ₚ elements X) opt d0 h0 e h1 d v h h',
  wf h0 d0 -> oh_fit order ord (oh_fix opt) d0 h0 = Ok (e, h1) ->
  wf h d -> drop_safe e (abs h d) -> oh_transform e d h = Ok (Some v, h') ->
  forall c j z, c ∈ en_cats e -> t_ints (abs h d) c !! j = Some z ->
  exists n, created e c n /\ flagged e c z n /\ t_cell (abs h' v) (KBool, n) j = Some (VBool true) /\
    forall n', created e c n' -> n' <> n -> t_cell (abs h' v) (KBool, n') j = Some (VBool false).
Proof. intros rt. exact C55_one_flag_main. Qed.
Print Assumptions C55_one_flag.
Theorem C55_transform_schedules : forall (rt : GoRT), forall opt t0 e h d, fixed opt -> fitted opt t0 e -> wf h d -> en_cats e <> [] -> "" ∉ en_cats e ->
  (1 <= actual_max_cpu (d_raw d))%Z ->
  (forall c, c ∈ en_cats e -> is_Some (t_cols (abs h d) !! (KInt, c))) ->
  exists res hp, oh_prepare e d h = Ok (res, hp) /\
  forall rnd q w m s, create_queue rnd (en_cats e) (actual_max_cpu (d_raw d)) = (q, w) ->
    let prog := oh_job e (mp hp (r_maps (d_raw res))) res in
    steps false (length (en_cats e)) prog m (pool_init q w hp) s ->
    m <= (2 * num_rows d + 4) * length (en_cats e) + Z.to_nat w + 1 /\ p_crash s = false /\
    (closed (length (en_cats e)) s -> oh_finish e res (p_got s) (p_heap s) = oh_transform e d h) /\
    (~ closed (length (en_cats e)) s -> exists s', step false (length (en_cats e)) prog s s').
Proof. intros rt. exact C55_transform_schedules_main. Qed.
Print Assumptions C55_transform_schedules.
Local Existing Instance ex_rt.
Example C55_case : wf w_train.2 w_train.1 /\ wf w_test.2 w_test.1 /\
  oh_fit elts ord0 (oh_fix w_opt) w_train.1 w_train.2 = Ok (w_enc, w_train.2) /\
  ((en_new w_enc : list string) ≡ₚ ["a_onehot0"; "a_onehot1"; "a_missing"; "a_unk"; "b_onehot0"; "b_unk"]) /\
  oh_show (run_oh w_enc w_test) "a_onehot0" = Some (VBool <$> [false; false; false; true]) /\
  oh_show (run_oh w_enc w_test) "a_onehot1" = Some (VBool <$> [true; false; false; false]) /\
  oh_show (run_oh w_enc w_test) "a_missing" = Some (VBool <$> [false; true; false; false]) /\
  oh_show (run_oh w_enc w_test) "a_unk" = Some (VBool <$> [false; false; true; false]) /\
  oh_show (run_oh w_enc w_test) "b_onehot0" = Some (VBool <$> [true; false; true; true]) /\
  oh_show (run_oh w_enc w_test) "b_unk" = Some (VBool <$> [false; true; false; false]).
Proof. exact C55_check_main. Qed.
Example C55_case_hypotheses : drop_safe w_enc (abs w_test.2 w_test.1) /\ "" ∉ en_cats w_enc /\ (1 <= actual_max_cpu (d_raw w_test.1))%Z.
Proof. exact C55_check2_main. Qed.
(** Outside [drop_safe]: a new column with the name of a categorical column is
    dropped with it, and without new columns the original dataframe loses its
    categorical columns. *)
Theorem C55_name_clash_refuted : exists d h e v h', wf h d /\ oh_fit elts ord0 (oh_fix w_opt) d h = Ok (e, h) /\
  oh_transform e d h = Ok (Some v, h') /\ created e "a" "a_onehot0" /\ t_ints (abs h d) "a" = [4; 4]%Z /\
  t_cols (abs h' v) !! (KBool, "a_onehot0") = None.
Proof. exact C55_name_clash_refuted_main. Qed.
Print Assumptions C55_name_clash_refuted.
Theorem C55_original_refuted : exists d h v h1 e r h2, wf h d /\ index_view d [] h = Ok (v, h1) /\
  oh_fit elts ord0 (oh_fix (OhOpt PError PError false)) d h1 = Ok (e, h1) /\ oh_transform e v h1 = Ok (Some r, h2) /\
  t_ints (abs h1 d) "a" = [-1; -1]%Z /\ t_cols (abs h2 d) !! (KInt, "a") = None.
Proof. exact C55_original_refuted_main. Qed.
Print Assumptions C55_original_refuted.

(** C56 Names. *)
Theorem C56_names : (forall c1 c2 i1 i2, onehot_name c1 i1 = onehot_name c2 i2 -> c1 = c2 /\ i1 = i2) /\
  (forall c1 c2, missing_name c1 = missing_name c2 -> c1 = c2) /\ (forall c1 c2, unk_name c1 = unk_name c2 -> c1 = c2) /\
  (forall c1 c2 i, onehot_name c1 i <> missing_name c2 /\ onehot_name c1 i <> unk_name c2 /\ missing_name c1 <> unk_name c2).
Proof. exact C56_names_main. Qed.
Print Assumptions C56_names.
Theorem C56_fitted : forall order (Horder : forall X, order X ≡ₚ elements X) ord (Hord : forall c b X, ord c b X ≡ₚ elements X) opt d h e h', wf h d -> oh_fit order ord (oh_fix opt) d h = Ok (e, h') ->
  NoDup (en_new e) /\
  (forall n, n ∈ en_new e -> exists c, c ∈ en_cats e /\ created e c n /\ forall c', c' ∈ en_cats e -> created e c' n -> c' = c) /\
  (forall c1 m1 c2 m2 z1 z2 n, c1 ∈ en_cats e -> c2 ∈ en_cats e -> en_map e !! c1 = Some m1 -> en_map e !! c2 = Some m2 ->
     m1 !! z1 = Some n -> m2 !! z2 = Some n -> c1 = c2 /\ z1 = z2).
Proof. exact C56_fitted_main. Qed.
Print Assumptions C56_fitted.
Example C56_case : onehot_name "a" 12 = "a_onehot12" /\ onehot_name "a_onehot1" 2 = "a_onehot1_onehot2" /\
  missing_name "a" = "a_missing" /\ unk_name "a" = "a_unk".
Proof. repeat split. Qed.

(** C57 Policies. *)
Theorem C57_error : forall (rt : GoRT), forall order (Horder : forall X, order X ≡ₚ elements X) ord (Hord : forall c b X, ord c b X ≡ₚ elements X) opt d0 h0 e h1 d h,
  wf h0 d0 -> oh_fit order ord (oh_fix opt) d0 h0 = Ok (e, h1) -> wf h d -> drop_safe e (abs h d) ->
  (forall c, is_Some (t_cols (abs h0 d0) !! (KInt, c)) -> is_Some (t_cols (abs h d) !! (KInt, c))) ->
  (exists h', oh_transform e d h = Ok (None, h') /\ preserved h h') <->
  exists c z, is_Some (t_cols (abs h0 d0) !! (KInt, c)) /\ z ∈ t_ints (abs h d) c /\
    (z = (-1)%Z /\ oh_missing (oh_fix opt) = PError \/ z <> (-1)%Z /\ z ∉ t_ints (abs h0 d0) c /\ oh_unknown (oh_fix opt) = PError).
Proof. intros rt. exact C57_error_main. Qed.
Print Assumptions C57_error.
Theorem C57_shared_partial : forall opt t0 e c m fb0 fb1, fitted opt t0 e -> c ∈ en_cats e -> en_map e !! c = Some m -> en_fb e !! c = Some (fb0, fb1) ->
  oh_unknown opt = PShared -> (oh_missing opt = PSeparate \/ oh_missing opt = PIfSeen /\ (-1)%Z ∈ t_ints t0 c) ->
  fb0 = missing_name c /\ fb1 = missing_name c /\ forall z, m !! z <> Some fb0.
Proof. exact C57_shared_partial_main. Qed.
Print Assumptions C57_shared_partial.
Theorem C57_fit_partial : forall order (Horder : forall X, order X ≡ₚ elements X) ord (Hord : forall c b X, ord c b X ≡ₚ elements X) opt d h, wf h d ->
  oh_fit order ord (oh_fix opt) d h = Panic <-> exists c, is_Some (t_cols (abs h d) !! (KInt, c)) /\ no_fallback (oh_fix opt) (t_ints (abs h d) c).
Proof. exact C57_fit_partial_main. Qed.
Print Assumptions C57_fit_partial.
Example C57_case : (run_oh (run_ohfit (OhOpt PError PSeparate false) w_train) w_test = None) /\
  oh_show (run_oh (run_ohfit (OhOpt PSeparate PShared false) w_train) w_test) "a_missing" = Some (VBool <$> [false; true; true; false]).
Proof. exact C57_check_main. Qed.
Theorem C57_shared_refuted : exists d0 h0 d h e v h' n, wf h0 d0 /\ wf h d /\
  oh_fit elts ord0 (oh_fix (OhOpt PShared PShared false)) d0 h0 = Ok (e, h0) /\ oh_transform e d h = Ok (Some v, h') /\
  t_ints (abs h d) "a" = [7%Z] /\ 7%Z ∉ t_ints (abs h0 d0) "a" /\
  flagged e "a" 3 n /\ t_cols (abs h' v) !! (KBool, n) = Some [VBool true].
Proof. exact C57_shared_refuted_main. Qed.
Print Assumptions C57_shared_refuted.
Theorem C57_fit_refuted : exists d h d2 h2, wf h d /\ wf h2 d2 /\
  oh_fit elts ord0 (oh_fix (OhOpt PShared PError false)) d h = Panic /\
  oh_fit elts ord0 (oh_fix (OhOpt PFrequent PError false)) d2 h2 = Panic /\
  oh_fit elts ord0 (oh_fix (OhOpt PSeparate PError false)) d h = Ok (run_ohfit (OhOpt PSeparate PError false) w_train, h).
Proof. exact C57_fit_refuted_main. Qed.
Print Assumptions C57_fit_refuted.
