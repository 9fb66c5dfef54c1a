(** Scaler, imputer, hash encoder, evaluation: proofs of the theorems. *)
From Coq Require Import Reals Psatz.
From Verif Require Export P_Exact P_Float2.
From Verif Require Export P_PrepPool P_Check.
From Verif Require Export P_ReadMain.

Lemma order_nodup (order : gset string -> list string) X : order X ≡ₚ elements X -> NoDup (order X) /\ list_to_set (order X) = X /\
  forall c, c ∈ order X <-> c ∈ X.
Proof.
  intros E. assert (H : forall c, c ∈ order X <-> c ∈ X) by (intros c; by rewrite E, elem_of_elements).
  split; [rewrite E; apply NoDup_elements|]. split; [|done]. apply set_eq. intros c. by rewrite elem_of_list_to_set, H.
Qed.

(** ** Scaler *)
(** The columns a scaler transforms, and what it makes of a value. *)
Definition spec_cols {A} (sc : scaler A) : gset string := dom (if decide (sc_shift sc = ∅) then sc_scale sc else sc_shift sc).
Definition spec_scaled (sc : scaler f64_arith) (c : string) (v : f64) : f64 :=
  f64_mul (f64_add v (default f64_zero (sc_shift sc !! c))) (default f64_one (sc_scale sc !! c)).

Lemma scaled_columns_spec {A} (sc : scaler A) : scaled_columns sc = spec_cols sc.
Proof.
  unfold scaled_columns, spec_cols. destruct (decide (sc_shift sc = ∅)) as [E|E].
  - rewrite decide_False; [done|]. rewrite E, map_size_empty. lia.
  - rewrite decide_True; [done|]. apply map_size_non_empty_iff in E. lia.
Qed.
Lemma scaler_transform_eq order sc d h : (forall X, order X ≡ₚ elements X) ->
  scaler_transform order sc d h = forM (order (spec_cols sc)) (fun c => update_column (scale_value sc c) d c) h.
Proof.
  intros Ho. unfold scaler_transform. rewrite scaled_columns_spec.
  destruct (decide (size (if decide (size (sc_shift sc) < size (sc_scale sc)) then sc_scale sc else sc_shift sc) = 0)) as [E|E]; [|done].
  assert (E' : spec_cols sc = ∅).
  { unfold spec_cols. destruct (decide (size (sc_shift sc) < size (sc_scale sc))) as [Hl|Hl]; [lia|].
    assert (sc_shift sc = ∅) as E1 by (by apply map_size_empty_iff). assert (sc_scale sc = ∅) as E2 by (apply map_size_empty_iff; lia).
    rewrite E1, E2. by destruct (decide _); rewrite dom_empty_L. }
  rewrite E'. pose proof (Ho ∅) as HP. rewrite elements_empty in HP. apply Permutation_nil_r in HP. by rewrite HP.
Qed.

Lemma C53_transform_inplace_main : forall (order : gset string -> list string) (sc : scaler f64_arith) (h : heap) (d : dframe),
  wf h d -> (forall X, order X ≡ₚ elements X) ->
  match scaler_transform order sc d h with
  | Ok (_, h') => (forall c, c ∈ spec_cols sc -> is_Some (t_cols (abs h d) !! (KFloat, c))) /\
      (* every dataframe sees in each of its cells what was there, transformed once for each time
         that one of the columns of d shows the cell *)
      forall d2, wf h d2 -> wf h' d2 /\ same_shape (abs h d2) (abs h' d2) /\
        forall k j, t_cell (abs h' d2) k j = match cell_of h d2 k j, t_cell (abs h d2) k j with
          | Some a, Some v => Some (foldl (fun v c => Nat.iter (hits h d (KFloat, c) a)
                                                     (fun v => VFloat (spec_scaled sc c (the_float v))) v) v (order (spec_cols sc)))
          | _, _ => None
          end
  | Panic => exists c, c ∈ spec_cols sc /\ t_cols (abs h d) !! (KFloat, c) = None
  end.
Proof.
  intros order sc h d W Ho. rewrite scaler_transform_eq by done.
  destruct (order_nodup order (spec_cols sc) (Ho _)) as (Hnd & Hset & Hin).
  pose proof (update_columns_spec (scale_value sc) d (order (spec_cols sc)) h W) as H.
  destruct (forM _ _ h) as [[[] h']|].
  - destruct H as (H1 & Hw & Hc). split; [intros c Hx; apply H1; by rewrite Hin|].
    intros d2 W2. assert (W2' : wf h' d2) by (by eapply wrt_wf). split; [done|]. split; [by apply wrt_shape|].
    intros k j. rewrite !t_cell_abs by done. rewrite (wrt_cell_of _ _ _ _ _ Hw).
    destruct (cell_of h d2 k j) as [a|] eqn:Ea; [|done]. simpl. rewrite Hc. by destruct (cell_val h a).
  - destruct H as (c & Hx & Hn). exists c. split; [by rewrite <- Hin|done].
Qed.

Lemma C53_each_value_once_main : forall (order : gset string -> list string) (sc : scaler f64_arith) (h : heap) (d : dframe),
  wf h d -> (forall X, order X ≡ₚ elements X) ->
  (forall c, c ∈ spec_cols sc -> is_Some (t_cols (abs h d) !! (KFloat, c))) ->
  (* no row is repeated and the columns share no cell with other columns *)
  NoDup (inds d) -> own_cells h d (spec_cols sc) ->
  exists h', scaler_transform order sc d h = Ok (tt, h') /\ wf h' d /\
    abs h' d = t_update (spec_cols sc) (spec_scaled sc) (abs h d) /\
    (forall d2, wf h d2 -> wf h' d2 /\ same_shape (abs h d2) (abs h' d2) /\
       forall k j, (forall c i a, c ∈ spec_cols sc -> cell_of h d2 k j = Some a -> cell_of h d (KFloat, c) i <> Some a) ->
         t_cell (abs h' d2) k j = t_cell (abs h d2) k j).
Proof.
  intros order sc h d W Ho Hcols Hnd Hown. rewrite scaler_transform_eq by done.
  destruct (order_nodup order (spec_cols sc) (Ho _)) as (Hnd' & Hset & Hin).
  pose proof (update_columns_spec (scale_value sc) d (order (spec_cols sc)) h W) as H.
  destruct (forM _ _ h) as [[[] h']|].
  2:{ exfalso. destruct H as (c & Hx & Hn). destruct (Hcols c) as [x Hc]; [by apply Hin|]. congruence. }
  destruct H as (H1 & Hw & Hc). exists h'. split; [done|]. split; [by eapply wrt_wf|]. split.
  - rewrite <- Hset at 1. apply updated_abs; [done|done|by rewrite Hset|done|exact Hc|by left].
  - intros d2 W2. assert (W2' : wf h' d2) by (by eapply wrt_wf). split; [done|]. split; [by apply wrt_shape|].
    intros k j Hfree. rewrite !t_cell_abs by done. rewrite (wrt_cell_of _ _ _ _ _ Hw).
    destruct (cell_of h d2 k j) as [a|] eqn:Ea; [|done]. simpl. rewrite Hc. destruct (cell_val h a) as [v|]; [|done]. simpl.
    f_equal. apply fold_up_none. intros c i Hx. apply (Hfree c i a); [by apply Hin|done].
Qed.
(** With any interleaving of the workers. *)
Lemma C53_all_schedules_main : forall (order : gset string -> list string) (sc : scaler f64_arith) (h : heap) (d : dframe),
  wf h d -> (forall X, order X ≡ₚ elements X) ->
  (forall c, c ∈ spec_cols sc -> is_Some (t_cols (abs h d) !! (KFloat, c))) ->
  own_cells h d (spec_cols sc) -> "" ∉ spec_cols sc -> (1 <= actual_max_cpu (d_raw d))%Z ->
  let keys := order (spec_cols sc) in
  let prog := scale_job sc (mp h (r_maps (d_raw d))) d in
  exists h', scaler_transform order sc d h = Ok (tt, h') /\
    forall rnd q w m s, create_queue rnd keys (actual_max_cpu (d_raw d)) = (q, w) ->
      steps true (length keys) prog m (pool_init q w h) s ->
      m <= (2 * num_rows d + 4) * length keys + Z.to_nat w + 1 /\ p_crash s = false /\
      (closed (length keys) s -> p_heap s = h') /\
      (~ closed (length keys) s -> exists s', step true (length keys) prog s s').
Proof.
  intros order sc h d W Ho Hcols Hown He Hcpu keys prog.
  destruct (order_nodup order (spec_cols sc) (Ho _)) as (Hnd' & Hset & Hin).
  rewrite scaler_transform_eq by done.
  pose proof (update_columns_spec (scale_value sc) d (order (spec_cols sc)) h W) as H.
  destruct (forM (order (spec_cols sc)) _ h) as [[[] h']|] eqn:E.
  2:{ exfalso. destruct H as (c & Hx & Hn). destruct (Hcols c) as [x Hc]; [by apply Hin|]. congruence. }
  exists h'. split; [done|]. intros rnd q w m s Eq Hst.
  apply (scale_pool sc d keys h h' W Hnd') with rnd q; [by unfold keys; rewrite Hin|done|by unfold keys; rewrite Hset|exact E|exact Eq|exact Hst].
Qed.

(** Fit. *)
Lemma names_float h d c : c ∈ names_of KFloat (mp h (r_maps (d_raw d))) <-> is_Some (t_cols (abs h d) !! (KFloat, c)).
Proof.
  rewrite abs_cols_lookup. unfold names_of. rewrite elem_of_names. split.
  - intros (k & s & [Hs Hk]%map_filter_lookup_Some). simpl in Hk. subst. rewrite Hs. by eexists.
  - intros H. destruct (mp h (r_maps (d_raw d)) !! (KFloat, c)) as [s|] eqn:E; [|by destruct H].
    exists KFloat, s. by apply map_filter_lookup_Some.
Qed.
Definition spec_fit (opt : scaler_opt) (t : table) (c : string) : option (option f64 * option f64) :=
  if decide (is_Some (t_cols t !! (KFloat, c))) then Some (fit_col f64_arith opt (t_floats t c)) else None.
Definition fits (opt : scaler_opt) (t : table) (sc : scaler f64_arith) : Prop :=
  forall c, sc_shift sc !! c = (p ← spec_fit opt t c; p.1) /\ sc_scale sc !! c = (p ← spec_fit opt t c; p.2).
Lemma fit_results opt h d (cols : list string) : NoDup cols -> (forall c, c ∈ cols <-> is_Some (t_cols (abs h d) !! (KFloat, c))) ->
  fits opt (abs h d) (collect_fit f64_arith ((fun c => (c, fit_col f64_arith opt (t_floats (abs h d) c))) <$> cols)).
Proof.
  intros Hnd Hin c.
  assert (Hk : ((fun c => (c, fit_col f64_arith opt (t_floats (abs h d) c))) <$> cols).*1 = cols).
  { rewrite <- list_fmap_compose. unfold compose. simpl. by rewrite list_fmap_id. }
  destruct (collect_fit_lookup f64_arith _ c (eq_ind_r NoDup Hnd Hk)) as [HA HB].
  enough (Hm : (list_to_map ((fun c => (c, fit_col f64_arith opt (t_floats (abs h d) c))) <$> cols) : gmap string _) !! c = spec_fit opt (abs h d) c).
  { split; [etrans; [exact HA|exact (f_equal (fun x => p ← x; p.1) Hm)]|etrans; [exact HB|exact (f_equal (fun x => p ← x; p.2) Hm)]]. }
  rewrite (list_to_map_fmap_lookup (fun c => fit_col f64_arith opt (t_floats (abs h d) c))). unfold spec_fit.
  destruct (decide (c ∈ cols)) as [Hc|Hc], (decide (is_Some _)) as [Hs|Hs]; try done; by apply Hin in Hc || by apply Hin in Hs.
Qed.
Lemma C50_fit_main : forall (order : gset string -> list string) (opt : scaler_opt) (h : heap) (d : dframe),
  wf h d -> (forall X, order X ≡ₚ elements X) ->
  exists sc, scaler_fit order opt d h = Ok (sc, h) /\ fits opt (abs h d) sc /\
    let keys := order (names_of KFloat (mp h (r_maps (d_raw d)))) in
    let prog := fit_job (fit_col f64_arith opt) (mp h (r_maps (d_raw d))) d in
    ("" ∉ keys -> (1 <= actual_max_cpu (d_raw d))%Z ->
     forall rnd q w m s, create_queue rnd keys (actual_max_cpu (d_raw d)) = (q, w) ->
      steps true (length keys) prog m (pool_init q w h) s ->
      m <= (num_rows d + 4) * length keys + Z.to_nat w + 1 /\ p_crash s = false /\
      (closed (length keys) s -> p_heap s = h /\ collect_fit f64_arith (p_got s) = sc) /\
      (~ closed (length keys) s -> exists s', step true (length keys) prog s s')).
Proof.
  intros order opt h d W Ho. set (cols := order (names_of KFloat (mp h (r_maps (d_raw d))))).
  destruct (order_nodup order (names_of KFloat (mp h (r_maps (d_raw d)))) (Ho _)) as (Hnd & _ & Hin). fold cols in Hnd, Hin.
  assert (Hin' : forall c, c ∈ cols <-> is_Some (t_cols (abs h d) !! (KFloat, c))) by (intros c; rewrite Hin; apply names_float).
  set (rs := (fun c => (c, fit_col f64_arith opt (t_floats (abs h d) c))) <$> cols).
  assert (Hk : rs.*1 = cols).
  { unfold rs. rewrite <- list_fmap_compose. unfold compose. simpl. by rewrite list_fmap_id. }
  exists (collect_fit f64_arith rs). split; [|split].
  - unfold scaler_fit. unfold bind, get_mp. fold cols. pose proof (read_all_spec (fit_col f64_arith opt) d cols h W) as H.
    destruct (read_all _ d cols h) as [[l h1]|].
    + destruct H as (-> & _ & ->). done.
    + destruct H as (c & Hc & Hn). apply Hin' in Hc. rewrite Hn in Hc. by destruct Hc.
  - by apply fit_results.
  - intros keys prog He Hcpu rnd q w m s Eq Hst.
    destruct (fit_pool (fit_col f64_arith opt) d cols h W Hnd He Hcpu) with true rnd q w m s as (H1 & H2 & H3 & H4); [by intros c Hc; apply Hin'|done|done|].
    split; [done|]. split; [done|]. split; [|done]. intros Hc. destruct (H3 Hc) as [Hh Hg]. split; [done|].
    symmetry. apply collect_fit_perm; [by rewrite Hk|by rewrite Hg].
Qed.

(** What fit_col computes, in exact arithmetic. *)
Local Open Scope R_scope.
Definition exact_scaler (opt : scaler_opt) (c : string) (vs : list xr) : scaler real_arith :=
  collect_fit real_arith [(c, fit_col real_arith opt vs)].
Definition exact_result (opt : scaler_opt) (c : string) (vs : list xr) : list xr :=
  scale_value (exact_scaler opt c vs) c <$> vs.

Lemma exact_result_affine opt c vs (a b : R) : Forall finite_or_missing vs ->
  (forall r, scale_value (exact_scaler opt c vs) c (XR r) = XR ((r + a) * b)) ->
  present (exact_result opt c vs) = (fun x => (x + a) * b) <$> present vs /\
  Forall finite_or_missing (exact_result opt c vs) /\
  forall i, exact_result opt c vs !! i = Some XNaN <-> vs !! i = Some XNaN.
Proof.
  intros H Hr. assert (HN : scale_value (exact_scaler opt c vs) c XNaN = XNaN) by done.
  split; [by apply present_map|]. split.
  - apply Forall_fmap. eapply Forall_impl; [exact H|]. intros [r|s|] Hx; unfold compose; [by rewrite Hr|done|by rewrite HN].
  - intros i. assert (L : exact_result opt c vs !! i = match vs !! i with Some v => Some (scale_value (exact_scaler opt c vs) c v : xr) | None => None end :> option xr).
    { unfold exact_result. etrans; [apply list_lookup_fmap|]. done. }
    rewrite L. destruct (vs !! i) as [v|] eqn:E; [|done].
    pose proof (Forall_lookup_1 _ _ _ _ H E) as Hv. destruct v as [r|s|]; [|done|by rewrite HN]. rewrite Hr. split; [intros [=]|intros [=]].
Qed.
Lemma exact_shift opt c vs : shift_of (exact_scaler opt c vs) c = default (XR 0) (fit_col real_arith opt vs).1.
Proof.
  unfold exact_scaler, collect_fit, shift_of. simpl. destruct (fit_col real_arith opt vs) as [[x|] [y|]]; simpl; rewrite ?lookup_insert; done.
Qed.
Lemma exact_factor opt c vs : factor_of (exact_scaler opt c vs) c = default (XR 1) (fit_col real_arith opt vs).2.
Proof.
  unfold exact_scaler, collect_fit, factor_of. simpl. destruct (fit_col real_arith opt vs) as [[x|] [y|]]; simpl; rewrite ?lookup_insert; done.
Qed.
Lemma exact_value opt c vs a b : default (XR 0) (fit_col real_arith opt vs).1 = XR a -> default (XR 1) (fit_col real_arith opt vs).2 = XR b ->
  forall r, scale_value (exact_scaler opt c vs) c (XR r) = XR ((r + a) * b).
Proof. intros Ha Hb r. unfold scale_value. by rewrite exact_shift, exact_factor, Ha, Hb. Qed.

Lemma C50_standardised_main : forall (c : string) (vs : list xr),
  Forall finite_or_missing vs -> present vs <> [] ->
  let ws := exact_result (ScalerOpt false true true) c vs in
  (* missing values stay missing, the others are numbers *)
  (forall i, ws !! i = Some XNaN <-> vs !! i = Some XNaN) /\ Forall finite_or_missing ws /\
  length (present ws) = length (present vs) /\
  r_mean (present ws) = 0 /\
  (~ all_equal (present vs) -> r_var (present ws) = 1) /\
  (all_equal (present vs) -> Forall (fun x => x = 0) (present ws)).
Proof.
  intros c vs H Hne ws. set (xs := present vs) in *.
  assert (E1 : default (XR 0) (fit_col real_arith (ScalerOpt false true true) vs).1 = XR (- r_mean xs)).
  { simpl. rewrite mean_exact by done. by rewrite decide_False. }
  assert (E2 : default (XR 1) (fit_col real_arith (ScalerOpt false true true) vs).2 = XR (r_scale xs)).
  { simpl. by rewrite scale_exact. }
  destruct (exact_result_affine (ScalerOpt false true true) c vs _ _ H (exact_value _ c vs _ _ E1 E2)) as (P1 & P2 & P3). fold ws in P1, P2, P3. fold xs in P1.
  split; [done|]. split; [done|]. rewrite P1. split; [by rewrite fmap_length|].
  split; [rewrite r_mean_affine by done; lra|]. split.
  - intros Hc. rewrite r_var_affine by done. apply r_scale_sq; [done|]. by rewrite r_var_0.
  - intros Hc. apply Forall_fmap, Forall_forall. intros x Hx. unfold compose. rewrite (const_mean xs x); [lra|done|].
    apply Forall_forall. intros y Hy. by apply Hc.
Qed.
(** A constant column, in exact arithmetic. *)
Definition zeroed (v : xr) : xr := match v with XNaN => XNaN | _ => XR 0 end.
Lemma C72_constant_partial_main : forall (c : string) (vs : list xr) (r : R),
  Forall (fun v => v = XR r \/ v = XNaN) vs ->
  exact_result (ScalerOpt false true true) c vs = zeroed <$> vs.
Proof.
  intros c vs r H.
  assert (Hf : Forall finite_or_missing vs) by (eapply Forall_impl; [exact H|]; by intros v [->| ->]).
  destruct (decide (present vs = [])) as [E|E].
  - apply list_fmap_ext. intros i v Hv. rewrite Forall_lookup in H. destruct (H i v Hv) as [-> | ->]; [|done].
    exfalso. apply elem_of_list_lookup_2 in Hv. assert (r ∈ present vs) as Hx; [|rewrite E in Hx; by apply elem_of_nil in Hx].
    unfold present. apply elem_of_list_omap. by exists (XR r).
  - destruct (C50_standardised_main c vs Hf E) as (H1 & H2 & H3 & _ & _ & H5).
    assert (HE : forall x, x ∈ present vs -> x = r).
    { intros x Hx. unfold present in Hx. apply elem_of_list_omap in Hx as (v & Hv & Hx). rewrite Forall_forall in H.
      destruct (H v Hv) as [-> | ->]; [by injection Hx|done]. }
    assert (HA : all_equal (present vs)) by (intros x y Hx Hy; by rewrite (HE x Hx), (HE y Hy)).
    specialize (H5 HA). apply list_eq. intros i. rewrite (list_lookup_fmap zeroed).
    destruct (vs !! i) as [v|] eqn:Ev; simpl.
    + assert (Hz : zeroed v = XNaN /\ v = XNaN \/ zeroed v = XR 0 /\ v <> XNaN) by (destruct v; auto; right; done).
      destruct Hz as [[-> ->]|[-> Hv]]; [by apply H1|].
      assert (Hi : (i < length (exact_result (ScalerOpt false true true) c vs))%nat) by (unfold exact_result; rewrite fmap_length; by eapply lookup_lt_Some).
      apply lookup_lt_is_Some in Hi as [w Hw]. rewrite Hw. f_equal. rewrite Forall_lookup in H2. specialize (H2 i w Hw).
      destruct w as [x|s|]; [|done|].
      * f_equal. rewrite Forall_forall in H5. apply H5. unfold present. apply elem_of_list_omap. exists (XR x). split; [|done]. by eapply elem_of_list_lookup_2.
      * apply H1 in Hw. congruence.
    + apply lookup_ge_None. unfold exact_result. rewrite fmap_length. by apply lookup_ge_None in Ev.
Qed.
(** With only one of the two options. *)
Lemma C50_centered_main : forall (c : string) (vs : list xr),
  Forall finite_or_missing vs -> present vs <> [] ->
  let ws := exact_result (ScalerOpt false true false) c vs in
  (forall i, ws !! i = Some XNaN <-> vs !! i = Some XNaN) /\
  r_mean (present ws) = 0 /\ r_var (present ws) = r_var (present vs).
Proof.
  intros c vs H Hne ws. set (xs := present vs) in *.
  assert (E1 : default (XR 0) (fit_col real_arith (ScalerOpt false true false) vs).1 = XR (- r_mean xs)).
  { simpl. rewrite mean_exact by done. by rewrite decide_False. }
  assert (E2 : default (XR 1) (fit_col real_arith (ScalerOpt false true false) vs).2 = XR 1) by done.
  destruct (exact_result_affine (ScalerOpt false true false) c vs _ _ H (exact_value _ c vs _ _ E1 E2)) as (P1 & P2 & P3). fold ws in P1, P2, P3. fold xs in P1.
  split; [done|]. rewrite P1. split; [rewrite r_mean_affine by done; lra|]. rewrite r_var_affine by done. lra.
Qed.
Lemma C50_scaled_main : forall (c : string) (vs : list xr),
  Forall finite_or_missing vs -> present vs <> [] ->
  let ws := exact_result (ScalerOpt false false true) c vs in
  (forall i, ws !! i = Some XNaN <-> vs !! i = Some XNaN) /\
  (~ all_equal (present vs) -> r_var (present ws) = 1 /\ r_mean (present ws) = r_mean (present vs) * R_sqrt.sqrt (/ r_var (present vs))).
Proof.
  intros c vs H Hne ws. set (xs := present vs) in *.
  assert (E1 : default (XR 0) (fit_col real_arith (ScalerOpt false false true) vs).1 = XR 0) by done.
  assert (E2 : default (XR 1) (fit_col real_arith (ScalerOpt false false true) vs).2 = XR (r_scale xs)).
  { simpl. by rewrite scale_exact. }
  destruct (exact_result_affine (ScalerOpt false false true) c vs _ _ H (exact_value _ c vs _ _ E1 E2)) as (P1 & P2 & P3). fold ws in P1, P2, P3. fold xs in P1.
  split; [done|]. intros Hc. rewrite P1. split; [rewrite r_var_affine by done; apply r_scale_sq; [done|by rewrite r_var_0]|].
  rewrite r_mean_affine by done. unfold r_scale. destruct (Req_EM_T (r_var xs) 0) as [E|E]; [|f_equal; lra].
  exfalso. apply Hc. by apply r_var_0.
Qed.

(** Min-max. *)
Lemma minmax_values c vs : Forall finite_or_missing vs -> present vs <> [] -> exists mn mx,
  mn ∈ present vs /\ mx ∈ present vs /\ Forall (fun x => mn <= x <= mx) (present vs) /\
  present (exact_result (ScalerOpt true false false) c vs) = (fun x => (x - mn) * (mx - mn)) <$> present vs.
Proof.
  intros H Hne. destruct (min_max_exact vs H Hne) as (mn & mx & E & H1 & H2 & H3). exists mn, mx. split; [done|]. split; [done|]. split; [done|].
  assert (E1 : default (XR 0) (fit_col real_arith (ScalerOpt true false false) vs).1 = XR (- mn)).
  { unfold fit_col. cbn [so_minmax]. rewrite E. done. }
  assert (E2 : default (XR 1) (fit_col real_arith (ScalerOpt true false false) vs).2 = XR (mx - mn)).
  { unfold fit_col. cbn [so_minmax]. rewrite E. done. }
  by destruct (exact_result_affine (ScalerOpt true false false) c vs _ _ H (exact_value _ c vs _ _ E1 E2)) as (P1 & P2 & P3).
Qed.
(** The claim, for a column: all in [0,1], 0 and 1 reached. *)
Definition unit_range (xs : list R) : Prop := Forall (fun x => 0 <= x <= 1) xs /\ 0 ∈ xs /\ 1 ∈ xs.
Lemma C51_minmax_partial_main : forall (c : string) (vs : list xr),
  Forall finite_or_missing vs -> present vs <> [] -> exists mn mx,
  mn ∈ present vs /\ mx ∈ present vs /\ Forall (fun x => mn <= x <= mx) (present vs) /\
  let ws := present (exact_result (ScalerOpt true false false) c vs) in
  (* the range obtained is [0, (max-min)^2] ... *)
  Forall (fun x => 0 <= x <= (mx - mn) * (mx - mn)) ws /\ 0 ∈ ws /\ (mx - mn) * (mx - mn) ∈ ws /\
  (* ... which is right in one case only *)
  (unit_range ws <-> mx - mn = 1).
Proof.
  intros c vs H Hne. destruct (minmax_values c vs H Hne) as (mn & mx & H1 & H2 & H3 & E). exists mn, mx.
  split; [done|]. split; [done|]. split; [done|]. cbv zeta. rewrite E. rewrite Forall_forall in H3.
  assert (Hle : mn <= mx) by (by apply H3).
  assert (A1 : Forall (fun x => 0 <= x <= (mx - mn) * (mx - mn)) ((fun x => (x - mn) * (mx - mn)) <$> present vs)).
  { apply Forall_fmap, Forall_forall. intros x Hx. unfold compose. destruct (H3 x Hx). split.
    - apply Rmult_le_pos; lra.
    - apply Rmult_le_compat_r; lra. }
  assert (A2 : 0 ∈ ((fun x => (x - mn) * (mx - mn)) <$> present vs)).
  { apply elem_of_list_fmap. exists mn. split; [lra|done]. }
  assert (A3 : (mx - mn) * (mx - mn) ∈ ((fun x => (x - mn) * (mx - mn)) <$> present vs)).
  { apply elem_of_list_fmap. exists mx. done. }
  split; [done|]. split; [done|]. split; [done|]. unfold unit_range. rewrite Forall_forall in A1. rewrite Forall_forall. split.
  - intros (B1 & _ & B3). apply A1 in B3. apply B1 in A3.
    assert ((mx - mn) * (mx - mn) = 1) as Ex by lra.
    assert ((mx - mn - 1) * (mx - mn + 1) = 0) as Ex2 by lra. apply Rmult_integral in Ex2 as [?|?]; lra.
  - intros Ex. rewrite Ex in *. replace (1 * 1) with 1 in * by lra. done.
Qed.

(** Inverse. *)
Lemma inverse_value (A : arith) (sc : scaler A) c v : scale_value (inverse_scaler sc) c v =
  match sc_shift sc !! c, sc_scale sc !! c with
  | Some s, Some k => a_mul A (a_add A v (a_mul A (a_opp A s) k)) (a_div A (a_of A 1) k)
  | Some s, None => a_mul A (a_add A v (a_opp A s)) (a_of A 1)
  | None, Some k => a_mul A (a_add A v (a_of A 0)) (a_div A (a_of A 1) k)
  | None, None => a_mul A (a_add A v (a_of A 0)) (a_of A 1)
  end.
Proof.
  unfold scale_value, shift_of, factor_of. cbn [inverse_scaler sc_shift sc_scale]. rewrite map_lookup_imap, lookup_fmap.
  by destruct (sc_shift sc !! c), (sc_scale sc !! c).
Qed.
Lemma C52_inverse_main : forall (sc : scaler real_arith) (c : string) (v : xr) (s k : R),
  (v = XNaN \/ exists r, v = XR r) ->
  default (XR 0) (sc_shift sc !! c) = XR s -> default (XR 1) (sc_scale sc !! c) = XR k -> k <> 0 ->
  scale_value (inverse_scaler sc) c (scale_value sc c v) = v.
Proof.
  intros sc c v s k Hv Hs Hk. change (shift_of sc c = XR s) in Hs. change (factor_of sc c = XR k) in Hk. revert Hs Hk.
  rewrite inverse_value. unfold scale_value, shift_of, factor_of. change (a_of real_arith 0) with (XR 0). change (a_of real_arith 1) with (XR 1).
  generalize (sc_shift sc !! c) (sc_scale sc !! c). intros os ok Hs Hk Hk0.
  destruct Hv as [-> |[r ->]]; [by destruct os, ok|].
  assert (Hd : forall k', k' <> 0 -> x_div (XR 1) (XR k') = XR (1 / k')).
  { intros k' H'. simpl. by destruct (Req_EM_T k' 0). }
  destruct os as [s'|]; cbn in Hs; [subst s'|injection Hs as <-]; (destruct ok as [k'|]; cbn in Hk; [subst k'|injection Hk as <-]).
  all: cbn -[x_div]; rewrite ?Hd by done; cbn; f_equal; field; done.
Qed.
Lemma C52_same_columns_main : forall (A : arith) (sc : scaler A), spec_cols (inverse_scaler sc) = spec_cols sc.
Proof.
  intros A sc. unfold spec_cols. cbn [inverse_scaler sc_shift sc_scale].
  assert (E : forall f : string -> num A -> option (num A), map_imap f (sc_shift sc) = ∅ -> (forall c x, is_Some (f c x)) -> sc_shift sc = ∅).
  { intros f Hf Hs. apply map_eq. intros c. rewrite lookup_empty. destruct (sc_shift sc !! c) as [x|] eqn:Ex; [|done].
    assert (map_imap f (sc_shift sc) !! c = None) as Hx by (rewrite Hf; apply lookup_empty).
    rewrite map_lookup_imap, Ex in Hx. simpl in Hx. destruct (Hs c x) as [y Hy]. congruence. }
  destruct (decide (sc_shift sc = ∅)) as [E1|E1].
  - rewrite decide_True; [apply dom_fmap_L|]. rewrite E1. apply map_eq. intros c. rewrite map_lookup_imap, !lookup_empty. done.
  - rewrite decide_False; [|intros E2; apply E1; eapply E; [exact E2|by eexists]].
    apply set_eq. intros c. rewrite !elem_of_dom, map_lookup_imap. destruct (sc_shift sc !! c); simpl; [split; by eexists|done].
Qed.
Local Close Scope R_scope.

Lemma t_update_twice cols f g t : t_update cols g (t_update cols f t) = t_update cols (fun c v => g c (f c v)) t.
Proof.
  unfold t_update, t_with_cols. cbn [t_cols]. f_equal. apply map_eq. intros k. rewrite !map_lookup_imap.
  destruct (t_cols t !! k) as [col|]; [|done]. simpl. destruct (decide _); [|done]. f_equal.
  unfold on_floats. rewrite <- list_fmap_compose. done.
Qed.
(** On dataframes, in float64: one composition of the two value maps. *)
Lemma C52_on_dataframes_main : forall (order : gset string -> list string) (sc : scaler f64_arith) (h : heap) (d : dframe),
  wf h d -> (forall X, order X ≡ₚ elements X) ->
  (forall c, c ∈ spec_cols sc -> is_Some (t_cols (abs h d) !! (KFloat, c))) ->
  NoDup (inds d) -> own_cells h d (spec_cols sc) ->
  exists h1 h2, scaler_transform order sc d h = Ok (tt, h1) /\ scaler_inverse order sc d h1 = Ok (tt, h2) /\ wf h2 d /\
    abs h2 d = t_update (spec_cols sc) (fun c v => spec_scaled (inverse_scaler sc) c (spec_scaled sc c v)) (abs h d).
Proof.
  intros order sc h d W Ho Hc Hnd Hown.
  destruct (C53_each_value_once_main order sc h d W Ho Hc Hnd Hown) as (h1 & E1 & W1 & A1 & O1).
  pose proof (C53_transform_inplace_main order sc h d W Ho) as HG. rewrite E1 in HG.
  assert (Hc1 : forall c, c ∈ spec_cols (inverse_scaler sc) -> is_Some (t_cols (abs h1 d) !! (KFloat, c))).
  { intros c. rewrite C52_same_columns_main. intros Hx. apply elem_of_dom. destruct (O1 d W) as (_ & (_ & -> & _) & _). apply elem_of_dom. by apply Hc. }
  assert (Hown1 : own_cells h1 d (spec_cols (inverse_scaler sc))).
  { rewrite C52_same_columns_main. rewrite scaler_transform_eq in E1 by done.
    pose proof (update_columns_spec (scale_value sc) d (order (spec_cols sc)) h W) as HU. rewrite E1 in HU. destruct HU as (_ & Hw & _).
    intros c k j1 j2 a Hx. rewrite !(wrt_cell_of _ _ _ _ _ Hw). by apply Hown. }
  destruct (C53_each_value_once_main order (inverse_scaler sc) h1 d W1 Ho Hc1 Hnd Hown1) as (h2 & E2 & W2 & A2 & _).
  exists h1, h2. split; [done|]. split; [done|]. split; [done|]. rewrite A2, A1, C52_same_columns_main.
  apply t_update_twice.
Qed.

(** ** Imputer *)
Definition fallback_ok (pol : impute_policy) (t : table) (fb : gmap string f64) : Prop :=
  forall c, fb !! c = (if decide (is_Some (t_cols t !! (KFloat, c))) then Some (match pol with
    | IMean => mean_of f64_arith (t_floats t c) | IZero => f64_zero | IOne => f64_one end : f64) else None).

Lemma imputer_fit_spec order pol h d : wf h d -> (forall X, order X ≡ₚ elements X) ->
  exists fb, imputer_fit order pol d h = Ok (fb, h) /\ fallback_ok pol (abs h d) fb.
Proof.
  intros W Ho. set (cols := order (names_of KFloat (mp h (r_maps (d_raw d))))).
  destruct (order_nodup order (names_of KFloat (mp h (r_maps (d_raw d)))) (Ho _)) as (Hnd & _ & Hin). fold cols in Hnd, Hin.
  assert (Hin' : forall c, c ∈ cols <-> is_Some (t_cols (abs h d) !! (KFloat, c))) by (intros c; rewrite Hin; apply names_float).
  assert (HX : forall f : string -> f64, forall c, (list_to_map ((fun c => (c, f c)) <$> cols) : gmap string f64) !! c =
    if decide (is_Some (t_cols (abs h d) !! (KFloat, c))) then Some (f c) else None).
  { intros f c. rewrite list_to_map_fmap_lookup. destruct (decide (c ∈ cols)) as [Hc|Hc], (decide (is_Some _)) as [Hs|Hs]; try done; by apply Hin' in Hc || by apply Hin' in Hs. }
  unfold imputer_fit, bind, get_mp. fold cols. destruct pol.
  - pose proof (read_all_spec (mean_of f64_arith) d cols h W) as H. destruct (read_all _ d cols h) as [[l h1]|].
    + destruct H as (-> & _ & ->). eexists. split; [done|]. intros c. apply (HX (fun c => mean_of f64_arith (t_floats (abs h d) c))).
    + destruct H as (c & Hc & Hn). apply Hin' in Hc. rewrite Hn in Hc. by destruct Hc.
  - eexists. split; [done|]. intros c. apply (HX (fun _ => f64_zero)).
  - eexists. split; [done|]. intros c. apply (HX (fun _ => f64_one)).
Qed.
Lemma C54_fit_main : forall (order : gset string -> list string) (pol : impute_policy) (h : heap) (d : dframe),
  wf h d -> (forall X, order X ≡ₚ elements X) ->
  exists fb, imputer_fit order pol d h = Ok (fb, h) /\ fallback_ok pol (abs h d) fb /\
    let keys := order (names_of KFloat (mp h (r_maps (d_raw d)))) in
    let prog := fit_job (mean_of f64_arith) (mp h (r_maps (d_raw d))) d in
    (pol = IMean -> "" ∉ keys -> (1 <= actual_max_cpu (d_raw d))%Z ->
     forall rnd q w m s, create_queue rnd keys (actual_max_cpu (d_raw d)) = (q, w) ->
      steps true (length keys) prog m (pool_init q w h) s ->
      m <= (num_rows d + 4) * length keys + Z.to_nat w + 1 /\ p_crash s = false /\
      (closed (length keys) s -> p_heap s = h /\ (list_to_map (p_got s) : gmap string f64) = fb) /\
      (~ closed (length keys) s -> exists s', step true (length keys) prog s s')).
Proof.
  intros order pol h d W Ho. destruct (imputer_fit_spec order pol h d W Ho) as (fb & E & Hfb). exists fb. split; [done|]. split; [done|].
  intros keys prog -> He Hcpu rnd q w m s Eq Hst.
  destruct (order_nodup order (names_of KFloat (mp h (r_maps (d_raw d)))) (Ho _)) as (Hnd & _ & Hin). fold keys in Hnd, Hin.
  assert (Hin' : forall c, c ∈ keys <-> is_Some (t_cols (abs h d) !! (KFloat, c))) by (intros c; rewrite Hin; apply names_float).
  destruct (fit_pool (mean_of f64_arith) d keys h W Hnd He Hcpu) with true rnd q w m s as (H1 & H2 & H3 & H4); [by intros c Hc; apply Hin'|done|done|].
  split; [done|]. split; [done|]. split; [|done]. intros Hc. destruct (H3 Hc) as [Hh Hg]. split; [done|].
  assert (Hk : ((fun c => (c, mean_of f64_arith (t_floats (abs h d) c))) <$> keys).*1 = keys).
  { rewrite <- list_fmap_compose. unfold compose. simpl. by rewrite list_fmap_id. }
  assert (Hnd2 : NoDup (p_got s).*1) by (rewrite Hg; by rewrite Hk).
  apply map_eq. intros c. etrans; [|symmetry; apply (Hfb c)].
  etrans; [exact (f_equal (fun m => m !! c) (list_to_map_proper (p_got s) _ Hnd2 Hg))|].
  etrans; [apply (list_to_map_fmap_lookup (fun c => mean_of f64_arith (t_floats (abs h d) c)))|].
  destruct (decide (c ∈ keys)) as [Hx|Hx], (decide (is_Some _)) as [Hs|Hs]; try done; by apply Hin' in Hx || by apply Hin' in Hs.
Qed.
Definition spec_impute (fb : gmap string f64) (c : string) (v : f64) : f64 :=
  if decide (v = S754_nan) then default f64_zero (fb !! c) else v.
Lemma impute_value_spec (fb : gmap string f64) c v : impute_value (default f64_zero (fb !! c)) v = spec_impute fb c v.
Proof. unfold impute_value, spec_impute. destruct (decide (v = S754_nan)) as [->|Hv]; [done|]. by destruct v. Qed.
Lemma t_update_ext cols f g t : (forall c v, f c v = g c v) -> t_update cols f t = t_update cols g t.
Proof.
  intros H. unfold t_update. f_equal. apply map_eq. intros k. rewrite !map_lookup_imap.
  destruct (t_cols t !! k) as [col|]; [|done]. simpl. destruct (decide _); [|done]. f_equal.
  unfold on_floats. apply list_fmap_ext. intros _ v _. by rewrite H.
Qed.
Lemma C54_transform_main : forall (order : gset string -> list string) (fb : gmap string f64) (h : heap) (d : dframe),
  wf h d -> (forall X, order X ≡ₚ elements X) -> own_cells h d (dom fb) ->
  match imputer_transform order fb d h with
  | Ok (_, h') => (forall c, c ∈ dom fb -> is_Some (t_cols (abs h d) !! (KFloat, c))) /\
      wf h' d /\ abs h' d = t_update (dom fb) (spec_impute fb) (abs h d) /\
      (forall d2, wf h d2 -> wf h' d2 /\ same_shape (abs h d2) (abs h' d2) /\
        forall k j, (forall c i a, c ∈ dom fb -> cell_of h d2 k j = Some a -> cell_of h d (KFloat, c) i <> Some a) \/
                    t_cell (abs h d2) k j <> Some (VFloat S754_nan) ->
          t_cell (abs h' d2) k j = t_cell (abs h d2) k j)
  | Panic => exists c, c ∈ dom fb /\ t_cols (abs h d) !! (KFloat, c) = None
  end.
Proof.
  intros order fb h d W Ho Hown. unfold imputer_transform.
  destruct (order_nodup order (dom fb) (Ho _)) as (Hnd & Hset & Hin).
  pose proof (update_columns_spec (fun c => impute_value (default f64_zero (fb !! c))) d (order (dom fb)) h W) as H.
  destruct (forM _ _ h) as [[[] h']|].
  2:{ destruct H as (c & Hc & Hn). exists c. split; [by apply Hin|done]. }
  destruct H as (H1 & Hw & Hc). split; [intros c Hx; by apply H1, Hin|]. split; [by eapply wrt_wf|]. split.
  - rewrite (updated_abs h h' d (fun c => impute_value (default f64_zero (fb !! c))) (order (dom fb))); [|done|done|by rewrite Hset|done|exact Hc|].
    + rewrite Hset. apply t_update_ext. intros c v. apply impute_value_spec.
    + intros c _. right. intros x. rewrite !impute_value_spec. unfold spec_impute. destruct (decide (x = S754_nan)) as [->|Hx].
      * destruct (decide _) as [E|E]; done.
      * by rewrite decide_False.
  - intros d2 W2. assert (W2' : wf h' d2) by (by eapply wrt_wf). split; [done|]. split; [by apply wrt_shape|].
    intros k j Hfree. rewrite !t_cell_abs by done. rewrite !t_cell_abs in Hfree by done. rewrite (wrt_cell_of _ _ _ _ _ Hw).
    destruct (cell_of h d2 k j) as [a|] eqn:Ea; [|done]. simpl in Hfree |- *. rewrite Hc. destruct (cell_val h a) as [v|] eqn:Ev; [|done]. simpl.
    f_equal. destruct Hfree as [Hfree|Hfree].
    + apply fold_up_none. intros c i Hx. apply (Hfree c i a); [by apply Hin|done].
    + (* a value that is not NaN never changes *)
      assert (Hk : forall c, (exists i, cell_of h d (KFloat, c) i = Some a) -> kind_of v = KFloat).
      { intros c [i Hi]. destruct (cell_of_valid _ _ _ _ _ W Hi) as (_ & v' & Hv' & Hkv). rewrite Ev in Hv'. injection Hv' as <-. done. }
      clear Hown Hnd Hset Hin H1 Hc. revert Hfree Hk. generalize (order (dom fb)). intros l Hfree Hk. unfold fold_up.
      induction l as [|c l IH]; [done|]. cbn [foldl].
      assert (Nat.iter (hits h d (KFloat, c) a) (up (impute_value (default f64_zero (fb !! c)))) v = v) as ->; [|done].
      destruct (decide (hits h d (KFloat, c) a = 0)) as [->|Hh]; [done|].
      assert (kind_of v = KFloat) as Hv.
      { apply (Hk c). unfold hits in Hh. destruct (filter _ _) as [|x fl] eqn:Ef; [done|].
        assert (x ∈ filter (fun x => x = Some a) (cell_of h d (KFloat, c) <$> seq 0 (num_rows d))) as Hx by (rewrite Ef; by apply elem_of_cons; left).
        apply elem_of_list_filter in Hx as [-> (i & Hi & _)%elem_of_list_fmap]. by exists i. }
      assert (Hid : up (impute_value (default f64_zero (fb !! c))) v = v).
      { destruct v as [o|f|z|b]; try done. unfold up, impute_value. simpl. destruct f; try done. }
      clear Hh. induction (hits h d (KFloat, c) a) as [|n IHn]; [done|]. simpl. by rewrite IHn.
Qed.
(** When a missing value remains. *)
Lemma C54_no_nan_partial_main : forall (pol : impute_policy) (t t' : table) (fb : gmap string f64) (c : string),
  fallback_ok pol t fb -> (Z.of_nat (length (t_floats t c)) <= 2 ^ 53)%Z ->
  (* the column to be imputed may be another one than the training column *)
  is_Some (t_cols t !! (KFloat, c)) ->
  (pol = IMean -> Forall (fun v => v = S754_nan \/ finite v) (t_floats t c) /\ exists v, v ∈ t_floats t c /\ v <> S754_nan) ->
  S754_nan ∉ t_floats (t_update (dom fb) (spec_impute fb) t') c.
Proof.
  intros pol t t' fb c Hfb Hlen Hs Hp Hin. unfold t_floats in Hin. apply elem_of_list_fmap in Hin as (v & Ev & Hv).
  unfold t_update in Hv. simpl in Hv. rewrite map_lookup_imap in Hv. destruct (t_cols t' !! (KFloat, c)) as [col|]; simpl in Hv; [|by apply elem_of_nil in Hv].
  pose proof (Hfb c) as Hc. rewrite decide_True in Hc by done.
  rewrite decide_True in Hv by (split; [done|]; apply elem_of_dom; by rewrite Hc).
  unfold on_floats in Hv. apply elem_of_list_fmap in Hv as (w & -> & _). simpl in Ev. unfold spec_impute in Ev. rewrite Hc in Ev. simpl in Ev.
  destruct (decide (the_float w = S754_nan)); [|congruence]. destruct pol; [|done|done].
  destruct (Hp eq_refl) as [H1 (v & H2 & H3)]. assert (f64_isnan (mean_of f64_arith (t_floats t c)) = false) as Hn; [|by rewrite <- Ev in Hn].
  apply f64_mean_notnan; [|exists v; split; [done|by destruct v]|done]. eapply Forall_impl; [exact H1|]. intros x [->|]; auto.
Qed.
Lemma C54_mean_exact_main : forall (vs : list xr), Forall finite_or_missing vs -> present vs <> [] ->
  mean_of real_arith vs = XR (r_mean (present vs)).
Proof. intros vs H Hne. rewrite mean_exact by done. by rewrite decide_False. Qed.

(** ** Evaluation *)
Lemma evaluate_spec f h d1 c1 d2 c2 : wf h d1 -> wf h d2 ->
  match evaluate f d1 c1 d2 c2 h with
  | Ok (x, h') => h' = h /\ is_Some (t_cols (abs h d1) !! (KFloat, c1)) /\ is_Some (t_cols (abs h d2) !! (KFloat, c2)) /\
      num_rows d1 = num_rows d2 /\ x = f (t_floats (abs h d1) c1) (t_floats (abs h d2) c2)
  | Panic => t_cols (abs h d1) !! (KFloat, c1) = None \/ t_cols (abs h d2) !! (KFloat, c2) = None \/ num_rows d1 <> num_rows d2
  end.
Proof.
  intros [n1 W1] [n2 W2]. unfold evaluate, access, bind, get_mp, ret, panic.
  destruct (mp h (r_maps (d_raw d1)) !! (KFloat, c1)) as [s1|] eqn:E1.
  2:{ simpl. left. by rewrite lookup_fmap, E1. }
  destruct (mp h (r_maps (d_raw d2)) !! (KFloat, c2)) as [s2|] eqn:E2.
  2:{ simpl. right. left. by rewrite lookup_fmap, E2. }
  destruct (gather_col h d1 n1 _ s1 W1 E1) as [G1 A1]. destruct (gather_col h d2 n2 _ s2 W2 E2) as [G2 A2]. unfold ret.
  destruct (decide (num_rows d1 = num_rows d2)) as [En|En]; [|by right; right]. rewrite G1, G2.
  split; [done|]. rewrite A1, A2. split; [by eexists|]. split; [by eexists|]. split; [done|].
  unfold t_floats. by rewrite A1, A2.
Qed.
Lemma C61_on_dataframes_main : forall (h : heap) (d1 : dframe) (c1 : string) (d2 : dframe) (c2 : string), wf h d1 -> wf h d2 ->
  is_Some (t_cols (abs h d1) !! (KFloat, c1)) -> is_Some (t_cols (abs h d2) !! (KFloat, c2)) ->
  mse d1 c1 d2 c2 h = (if decide (t_rows (abs h d1) = t_rows (abs h d2))
                       then Ok (mse_of f64_arith (t_floats (abs h d1) c1) (t_floats (abs h d2) c2), h) else Panic) /\
  mae d1 c1 d2 c2 h = (if decide (t_rows (abs h d1) = t_rows (abs h d2))
                       then Ok (mae_of f64_arith (t_floats (abs h d1) c1) (t_floats (abs h d2) c2), h) else Panic).
Proof.
  intros h d1 c1 d2 c2 W1 W2 H1 H2. change (t_rows (abs h d1)) with (num_rows d1). change (t_rows (abs h d2)) with (num_rows d2).
  split; [pose proof (evaluate_spec (mse_of f64_arith) h d1 c1 d2 c2 W1 W2) as H; unfold mse|pose proof (evaluate_spec (mae_of f64_arith) h d1 c1 d2 c2 W1 W2) as H; unfold mae];
  (destruct (evaluate _ d1 c1 d2 c2 h) as [[x h']|];
   [destruct H as (-> & _ & _ & E & ->); by rewrite decide_True|
    destruct H as [H|[H|H]]; [rewrite H in H1; by destruct H1|rewrite H in H2; by destruct H2|by rewrite decide_False]]).
Qed.
Local Open Scope R_scope.
Definition sq_errors (xs ys : list R) : list R := (fun p => (p.1 - p.2) * (p.1 - p.2)) <$> zip xs ys.
Definition abs_errors (xs ys : list R) : list R := (fun p => Rabs (p.1 - p.2)) <$> zip xs ys.
Lemma err_acc (F : xr -> xr -> xr) (G : R -> R -> R) xs : forall ys s, (forall a b, F (XR a) (XR b) = XR (G a b)) ->
  foldl (fun r p => x_add r (F p.1 p.2)) (XR s) (zip (XR <$> xs) (XR <$> ys)) = XR (s + r_sum ((fun p => G p.1 p.2) <$> zip xs ys)).
Proof.
  induction xs as [|x xs IH]; intros ys s H; [simpl; unfold r_sum; simpl; f_equal; lra|].
  destruct ys as [|y ys]; [simpl; unfold r_sum; simpl; f_equal; lra|].
  rewrite !fmap_cons. cbn [zip zip_with foldl fst snd]. rewrite H.
  change (x_add (XR s) (XR (G x y))) with (XR (s + G x y)).
  change (zip_with pair (XR <$> xs) (XR <$> ys)) with (zip (XR <$> xs) (XR <$> ys)). rewrite IH by done.
  rewrite fmap_cons, r_sum_cons. f_equal. simpl. lra.
Qed.
Lemma C61_documented_means_main : forall (xs ys : list R), length xs = length ys -> xs <> [] ->
  mse_of real_arith (XR <$> xs) (XR <$> ys) = XR (r_mean (sq_errors xs ys)) /\
  mae_of real_arith (XR <$> xs) (XR <$> ys) = XR (r_mean (abs_errors xs ys)) /\
  0 <= r_mean (sq_errors xs ys) /\ 0 <= r_mean (abs_errors xs ys) /\
  (r_mean (sq_errors xs ys) = 0 <-> xs = ys) /\ (r_mean (abs_errors xs ys) = 0 <-> xs = ys) /\
  r_mean (sq_errors xs ys) = r_mean (sq_errors ys xs) /\ r_mean (abs_errors xs ys) = r_mean (abs_errors ys xs).
Proof.
  intros xs ys Hl Hne. pose proof (length_pos xs Hne) as Hp.
  assert (Hz : length (zip xs ys) = length xs) by (rewrite zip_with_length; lia).
  assert (Hz' : length (zip ys xs) = length xs) by (rewrite zip_with_length; lia).
  assert (D : forall S, x_div (XR S) (XR (IZR (Z.of_nat (length (XR <$> xs))))) = XR (S / INR (length xs))).
  { intros S. simpl. rewrite fmap_length, <- INR_IZR_INZ. destruct (Req_EM_T _ 0); [lra|done]. }
  assert (M1 : forall G : R * R -> R, r_mean (G <$> zip xs ys) = r_sum (G <$> zip xs ys) / INR (length xs)).
  { intros G. unfold r_mean. by rewrite fmap_length, Hz. }
  assert (Hzero : forall G : R * R -> R, (forall p, 0 <= G p) -> (forall p, G p = 0 <-> p.1 = p.2) -> r_sum (G <$> zip xs ys) / INR (length xs) = 0 <-> xs = ys).
  { intros G H0 HG. split.
    - intros E. assert (E0 : r_sum (G <$> zip xs ys) = 0) by (apply (Rmult_eq_compat_r (INR (length xs))) in E; unfold Rdiv in E; rewrite Rmult_assoc, Rinv_l in E by lra; lra).
      apply r_sum_zero in E0; [|apply Forall_fmap, Forall_forall; intros p _; apply H0]. apply Forall_fmap in E0.
      apply list_eq_same_length with (length xs); [done|done|]. intros i x y Hi Hx Hy. rewrite Forall_forall in E0.
      assert ((x, y) ∈ zip xs ys) as Hin. { apply elem_of_list_lookup. exists i. by rewrite lookup_zip_with, Hx, Hy. }
      specialize (E0 _ Hin). unfold compose in E0. by apply HG in E0.
    - intros <-. assert (r_sum (G <$> zip xs xs) = 0) as ->; [|lra]. assert (Forall (fun x => x = 0) (G <$> zip xs xs)) as HF.
      { apply Forall_fmap, Forall_forall. intros p [i Hi]%elem_of_list_lookup. rewrite lookup_zip_with in Hi.
        destruct (xs !! i); [|done]. simpl in Hi. injection Hi as <-. unfold compose. by apply HG. }
      clear -HF. induction HF as [|x l -> H IH]; [done|]. rewrite r_sum_cons, IH. lra. }
  assert (Hpos : forall G : R * R -> R, (forall p, 0 <= G p) -> 0 <= r_sum (G <$> zip xs ys) / INR (length xs)).
  { intros G H0. apply Rle_mult_inv_pos; [|done]. apply r_sum_nonneg, Forall_fmap, Forall_forall. intros p _. apply H0. }
  assert (Hsym : forall G : R * R -> R, (forall a b, G (a, b) = G (b, a)) -> G <$> zip ys xs = G <$> zip xs ys).
  { intros G HG. apply list_eq. intros i. rewrite !list_lookup_fmap, !lookup_zip_with. destruct (xs !! i), (ys !! i); simpl; f_equal; done. }
  split; [|split; [|split; [|split; [|split; [|split; [|split]]]]]].
  - unfold mse_of, sq_errors. rewrite M1. rewrite <- D. cbn [a_div a_of real_arith]. f_equal.
    etrans; [apply (err_acc (fun a b => x_mul (x_add a (x_opp b)) (x_add a (x_opp b))) (fun a b => (a - b) * (a - b)) xs ys 0); done|f_equal; lra].
  - unfold mae_of, abs_errors. rewrite M1. rewrite <- D. cbn [a_div a_of real_arith]. f_equal.
    etrans; [apply (err_acc (fun a b => x_abs (x_add a (x_opp b))) (fun a b => Rabs (a - b)) xs ys 0); done|f_equal; lra].
  - unfold sq_errors. rewrite M1. apply Hpos. intros p. apply Rle_0_sqr.
  - unfold abs_errors. rewrite M1. apply Hpos. intros p. apply Rabs_pos.
  - unfold sq_errors. rewrite M1. apply Hzero; [intros p; apply Rle_0_sqr|]. intros p. split; [intros E; apply Rsqr_0_uniq in E; lra|intros ->; lra].
  - unfold abs_errors. rewrite M1. apply Hzero; [intros p; apply Rabs_pos|]. intros p. split; [|intros ->; rewrite Rminus_diag_eq by done; apply Rabs_R0].
    intros E. destruct (Req_dec (p.1 - p.2) 0) as [|Hn]; [lra|]. by apply Rabs_no_R0 in Hn.
  - unfold sq_errors. rewrite (Hsym (fun p => (p.1 - p.2) * (p.1 - p.2))); [done|]. intros a b. simpl. ring.
  - unfold abs_errors. rewrite (Hsym (fun p => Rabs (p.1 - p.2))); [done|]. intros a b. simpl. apply Rabs_minus_sym.
Qed.
Local Close Scope R_scope.
(** In float64: bit for bit symmetric, never negative; without rows the
    result is NaN. *)
Lemma foldl_zip_sym {B} (F : f64 -> f64 -> f64) (g : B -> f64 -> B) xs : forall ys (b : B), (forall x y, F x y = F y x) ->
  foldl (fun r p => g r (F p.1 p.2)) b (zip xs ys) = foldl (fun r p => g r (F p.1 p.2)) b (zip ys xs).
Proof.
  induction xs as [|x xs IH]; intros [|y ys] b H; try done. cbn [zip zip_with foldl fst snd]. rewrite (H y x). by apply IH.
Qed.
Lemma foldl_nonneg (F : f64 -> f64 -> f64) l : forall b, nonneg b -> (forall x y, nonneg (F x y)) ->
  nonneg (foldl (fun r p => f64_add r (F p.1 p.2)) b l).
Proof. induction l as [|p l IH]; intros b Hb H; [done|]. cbn [foldl]. apply IH; [|done]. by apply f64_add_nonneg. Qed.
Lemma C61_float64_main : forall (xs ys : list f64), length xs = length ys ->
  mse_of f64_arith xs ys = mse_of f64_arith ys xs /\ mae_of f64_arith xs ys = mae_of f64_arith ys xs /\
  f64_lt (mse_of f64_arith xs ys) f64_zero = false /\ f64_lt (mae_of f64_arith xs ys) f64_zero = false /\
  (xs = [] -> mse_of f64_arith xs ys = S754_nan /\ mae_of f64_arith xs ys = S754_nan).
Proof.
  intros xs ys Hl.
  assert (Hnn : forall x, nonneg x -> f64_lt x f64_zero = false).
  { intros x [Hx|Hx]; [by destruct x|]. destruct x as [s|s| |s m e]; simpl in Hx; subst; done. }
  assert (N1 : nonneg (f64_of_Z 0)) by (right; by apply f64_of_Z_sign).
  split; [|split; [|split; [|split]]].
  - unfold mse_of. f_equal; [|exact (f_equal (fun n => f64_of_Z (Z.of_nat n)) Hl)]. apply (foldl_zip_sym (fun x y => f64_mul (f64_sub x y) (f64_sub x y)) f64_add). apply f64_sq_sym.
  - unfold mae_of. f_equal; [|exact (f_equal (fun n => f64_of_Z (Z.of_nat n)) Hl)]. apply (foldl_zip_sym (fun x y => SFabs (f64_sub x y)) f64_add). apply f64_abs_sym.
  - apply Hnn. apply f64_div_nonneg; [|lia]. apply (foldl_nonneg (fun x y => f64_mul (f64_sub x y) (f64_sub x y))); [done|]. intros. apply f64_sq_nonneg.
  - apply Hnn. apply f64_div_nonneg; [|lia]. apply (foldl_nonneg (fun x y => SFabs (f64_sub x y))); [done|]. intros. apply f64_abs_nonneg.
  - intros ->. done.
Qed.

(** ** HashEncoder *)
Section hashenc.
Context {rt : GoRT}.
Lemma C73_hash_encoder_partial_main : forall (order : gset string -> list string) (h h2 : heap) (train d : dframe),
  wf h train -> wf h2 d -> (forall X, order X ≡ₚ elements X) ->
  (* every string column of the training data is one of the other dataframe, which has another column *)
  (forall c, c ∈ t_strs (abs h train) -> is_Some (t_cols (abs h2 d) !! (KObj, c))) ->
  (exists k, is_Some (t_cols (abs h2 d) !! k) /\ k.2 ∉ t_strs (abs h train)) ->
  exists cols v h', hash_encoder_fit order train h = Ok (cols, h) /\ cols ≡ₚ elements (t_strs (abs h train)) /\
    hash_encoder_transform cols d h2 = Ok (v, h') /\ wf h' v /\ preserved h2 h' /\
    t_rows (abs h' v) = t_rows (abs h2 d) /\
    forall k c, t_cols (abs h' v) !! (k, c) =
      if decide (c ∈ t_strs (abs h train)) then match k with KInt => fmap spec_hash <$> t_cols (abs h2 d) !! (KObj, c) | _ => None end
      else t_cols (abs h2 d) !! (k, c).
Proof.
  intros order h h2 train d Wt W Ho Hs Hk.
  set (cols := order (t_strs (abs h train))).
  assert (Hin : forall c, c ∈ cols <-> c ∈ t_strs (abs h train)) by (intros c; unfold cols; by rewrite Ho, elem_of_elements).
  assert (Ef : hash_encoder_fit order train h = Ok (cols, h)).
  { unfold hash_encoder_fit, bind, get_ostr. unfold cols. simpl. by destruct (r_strs (d_raw train)). }
  destruct (decide (cols = [])) as [E0|E0].
  - exists cols, (view d), h2. split; [done|]. split; [apply Ho|].
    split; [unfold hash_encoder_transform, hash_strings_view; by rewrite decide_True|].
    split; [by apply wf_view|]. split; [apply preserved_refl|].
    rewrite abs_view. split; [done|]. intros k c. rewrite decide_False; [done|]. rewrite <- Hin, E0. apply not_elem_of_nil.
  - destruct (hash_strings_view_spec h2 d cols) as (v & h' & E & W' & X & A); [done|done|..].
    { intros c Hc. by apply Hs, Hin. }
    { destruct Hk as (k & H1 & H2). exists k. split; [done|]. by rewrite Hin. }
    exists cols, v, h'. split; [done|]. split; [apply Ho|]. split; [done|]. split; [done|]. split; [by apply ext_preserved|].
    rewrite A. split; [done|]. intros k c. rewrite (C24_hashed_columns_main (abs h2 d) cols k c).
    + destruct (decide (c ∈ cols)) as [Hc|Hc]; [rewrite decide_True by (by apply Hin)|rewrite decide_False by (by rewrite <- Hin)]; done.
    + intros c' Hc'. by apply Hs, Hin.
Qed.
End hashenc.

(** ** Counterexamples and concrete cases *)
Definition elts (X : gset string) : list string := elements X.
Lemma elts_perm X : elts X ≡ₚ elements X.
Proof. done. Qed.
Definition fz (n : Z) : f64 := f64_of_Z n.
Definition f_tenth : f64 := f64_div f64_one (fz 10).
Lemma own_one h d c : map_Forall (fun k s => k = (KFloat, c) \/ s_arr s <> default 0 (s_arr <$> mp h (r_maps (d_raw d)) !! (KFloat, c))) (mp h (r_maps (d_raw d))) ->
  own_cells h d {[c]}.
Proof.
  intros HM c' k j1 j2 a ->%elem_of_singleton H1 H2. unfold cell_of in H1, H2.
  destruct (mp h (r_maps (d_raw d)) !! (KFloat, c)) as [s1|] eqn:E1; [|done].
  destruct (mp h (r_maps (d_raw d)) !! k) as [s2|] eqn:E2; [|done]. destruct (HM k s2 E2) as [|Hn]; [done|]. simpl in Hn, H1, H2.
  destruct (inds d !! j1); [|done]. destruct (inds d !! j2); [|done]. simpl in *. congruence.
Qed.
Section wit.
Existing Instance ex_rt.
Definition one_col (vs : list f64) : dframe * heap := run_df (let* r := new_raw in let* r := b_add KFloat r "x" (VFloat <$> vs) in to_dataframe r) heap0.
Definition run_unit2 (m : M unit) (h : heap) : heap := match m h with Ok (_, h') => h' | Panic => heap0 end.
Definition no_sc : scaler f64_arith := Scaler ∅ ∅.
Definition run_fit (opt : scaler_opt) (d : dframe) (h : heap) : scaler f64_arith :=
  match scaler_fit elts opt d h with Ok (sc, _) => sc | Panic => no_sc end.
(** Fit and TransformInplace on one column. *)
Definition fit_trans (opt : scaler_opt) (vs : list f64) : option (list val) :=
  let '(d, h) := one_col vs in
  let sc := run_fit opt d h in
  show KFloat "x" (run_unit2 (scaler_transform elts sc d) h) d.
Definition fit_trans_back (opt : scaler_opt) (vs : list f64) : option (list val) :=
  let '(d, h) := one_col vs in
  let sc := run_fit opt d h in
  let h1 := run_unit2 (scaler_transform elts sc d) h in
  show KFloat "x" (run_unit2 (scaler_inverse elts sc d) h1) d.

(** C50: 1, missing, 3, 5, 7; mean 4, variance 5; here with a power of two. *)
Lemma C50_check_main :
  fit_trans (ScalerOpt false true true) [fz 1; S754_nan; fz 3; fz 1; fz 3] =
  Some (VFloat <$> [fz (-1); S754_nan; fz 1; fz (-1); fz 1]).
Proof. by vm_compute. Qed.
Lemma C50_check2_main : Forall finite_or_missing [XR 1; XNaN; XR 3] /\ present [XR 1; XNaN; XR 3] <> [] /\
  ~ all_equal (present [XR 1; XNaN; XR 3]).
Proof.
  split; [by repeat constructor|]. split; [done|]. intros H.
  assert (1%R = 3%R) as E; [|lra]. apply H; [by apply elem_of_list_here|apply elem_of_list_further, elem_of_list_here].
Qed.
(** C51: 0 and 2 become 0 and 4. *)
Lemma C51_minmax_refuted_main : exists (vs : list f64), Forall finite vs /\
  fit_trans (ScalerOpt true false false) vs = Some [VFloat (fz 0); VFloat (fz 4)].
Proof. exists [fz 0; fz 2]. split; [by repeat constructor|]. by vm_compute. Qed.
Lemma C51_check_main : fit_trans (ScalerOpt true false false) [fz 5; f64_sub (fz 6) f_half; S754_nan; fz 6] = Some (VFloat <$> [fz 0; f_half; S754_nan; fz 1]).
Proof. by vm_compute. Qed.
(** C52: a constant column; rounding. *)
Lemma C52_constant_refuted_main : exists (vs : list f64), Forall finite vs /\
  fit_trans_back (ScalerOpt true false false) vs = Some [VFloat S754_nan; VFloat S754_nan] /\ vs = [fz 5; fz 5].
Proof. exists [fz 5; fz 5]. split; [by repeat constructor|]. split; [by vm_compute|done]. Qed.
Lemma C52_check_main : fit_trans_back (ScalerOpt true false false) [fz 5; fz 7; S754_nan] = Some (VFloat <$> [fz 5; fz 7; S754_nan]).
Proof. by vm_compute. Qed.
Lemma C52_rounding_refuted_main : exists (vs : list f64), Forall finite vs /\
  fit_trans_back (ScalerOpt false true true) vs <> Some (VFloat <$> vs) /\ is_Some (fit_trans_back (ScalerOpt false true true) vs).
Proof.
  exists [f_tenth; fz 1; fz 3]. split; [by repeat constructor|]. split; [|vm_compute; by eexists].
  intros E. vm_compute in E. discriminate E.
Qed.
(** C53: rows 2, 0, 2: row 2 is scaled twice. *)
Definition c53_sc : scaler f64_arith := Scaler {["b" := fz 1]} {["b" := fz 2]}.
Lemma C53_repeated_refuted_main : exists (h : heap) (d : dframe) (h' : heap),
  wf h d /\ own_cells h d (spec_cols c53_sc) /\
  scaler_transform elts c53_sc d h = Ok (tt, h') /\
  t_floats (abs h d) "b" = [fz 1; f_half; fz 1] /\
  t_floats (abs h' d) "b" = [fz 10; fz 3; fz 10] /\
  spec_scaled c53_sc "b" (fz 1) = fz 4.
Proof.
  exists ex_vh, ex_v, (run_unit2 (scaler_transform elts c53_sc ex_v) ex_vh). split; [exact ex_v_wf|].
  split.
  { assert (spec_cols c53_sc = {["b"]}) as -> by (apply (bool_decide_unpack _); by vm_compute).
    apply own_one. apply (bool_decide_unpack _). by vm_compute. }
  split; [by vm_compute|]. split; [by vm_compute|]. split; by vm_compute.
Qed.
Lemma C53_check_main : wf ex_h ex_d /\ NoDup (inds ex_d) /\
  (forall c, c ∈ spec_cols c53_sc -> is_Some (t_cols (abs ex_h ex_d) !! (KFloat, c))) /\
  t_floats (abs (run_unit2 (scaler_transform elts c53_sc ex_d) ex_h) ex_d) "b" = [fz 3; fz 2; fz 4; fz 4].
Proof.
  split; [exact ex_wf|]. split; [apply (bool_decide_unpack _); by vm_compute|]. split; [|by vm_compute].
  intros c Hc. assert (spec_cols c53_sc = {["b"]}) as E by (apply (bool_decide_unpack _); by vm_compute). rewrite E in Hc.
  apply elem_of_singleton in Hc as ->. apply (bool_decide_unpack _); by vm_compute.
Qed.
(** C54 *)
Definition fit_impute (pol : impute_policy) (vs : list f64) : option (list val) :=
  let '(d, h) := one_col vs in
  let fb := match imputer_fit elts pol d h with Ok (fb, _) => fb | Panic => ∅ end in
  show KFloat "x" (run_unit2 (imputer_transform elts fb d) h) d.
Lemma C54_check_main : fit_impute IMean [fz 2; S754_nan; fz 4] = Some (VFloat <$> [fz 2; fz 3; fz 4]) /\
  fit_impute IOne [fz 2; S754_nan; fz 4] = Some (VFloat <$> [fz 2; fz 1; fz 4]).
Proof. split; by vm_compute. Qed.
Lemma C54_all_missing_refuted_main : exists (vs vs2 : list f64),
  fit_impute IMean vs = Some [VFloat S754_nan; VFloat S754_nan] /\ vs = [S754_nan; S754_nan] /\
  fit_impute IMean vs2 = Some [VFloat (S754_infinity false); VFloat (S754_infinity true); VFloat S754_nan].
Proof. exists [S754_nan; S754_nan], [S754_infinity false; S754_infinity true; S754_nan]. split; [by vm_compute|]. split; [done|by vm_compute]. Qed.
(** C61: differences too small to be squared. *)
Definition f_tiny : f64 := f64_div f64_one (fz (2 ^ 1000)).
Lemma C61_zero_refuted_main : exists (xs ys : list f64), Forall finite xs /\ Forall finite ys /\ length xs = length ys /\ xs <> ys /\
  mse_of f64_arith xs ys = f64_zero.
Proof.
  exists [f_tiny; fz 1], [f64_zero; fz 1]. split; [by repeat constructor|]. split; [by repeat constructor|]. split; [done|].
  split; [|by vm_compute]. intros E. vm_compute in E. discriminate E.
Qed.
Lemma C61_check_main : (let '(d, h) := one_col [fz 1; fz 5] in
   match mse d "x" d "x" h, mae d "x" d "x" h with Ok (x, _), Ok (y, _) => (x, y) | _, _ => (S754_nan, S754_nan) end) = (fz 0, fz 0) /\
  mse_of f64_arith [fz 1; fz 5] [fz 2; fz 2] = fz 5 /\ mae_of f64_arith [fz 1; fz 5] [fz 2; fz 2] = fz 2.
Proof. split; [by vm_compute|]. split; by vm_compute. Qed.
(** C72: three times 0.1. *)
Lemma C72_constant_refuted_main : exists (vs : list f64), vs = [f_tenth; f_tenth; f_tenth] /\
  fit_trans (ScalerOpt false true true) vs = Some (VFloat <$> [fz (-1); fz (-1); fz (-1)]).
Proof. exists [f_tenth; f_tenth; f_tenth]. split; [done|by vm_compute]. Qed.
Lemma C72_check_main : mean_of f64_arith [f_tenth; f_tenth; S754_nan] = f_tenth /\
  fit_trans (ScalerOpt false true true) [f_tenth; f_tenth; S754_nan] = Some (VFloat <$> [fz 0; fz 0; S754_nan]).
Proof. split; by vm_compute. Qed.
(** C73 *)
Lemma C73_check_main : (let '(v, h) := run_df (let* cols := hash_encoder_fit elts ex_v in hash_encoder_transform cols ex_v) ex_vh in
   show KInt "s" h v = Some (spec_hash <$> [VObj (OStr "yy"); VObj (OStr "x"); VObj (OStr "yy")]) /\
   show KObj "s" h v = None /\ show KInt "a" h v = Some [VInt 9; VInt 5; VInt 9]).
Proof. by vm_compute. Qed.
End wit.
