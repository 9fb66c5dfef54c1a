(** AutoPreprocessor: training. *)
From Verif Require Import P_OneHotMain P_Hash P_View2.
From Verif Require Export P_Auto3.
From Verif Require Import P_PrepMain.

Lemma column_view_ind d cols h v h' : column_view d cols h = Ok (v, h') -> d_ind v = d_ind d.
Proof.
  unfold column_view. destruct (decide (cols = [])); [by intros [= <- <-]|]. intros H.
  repeat (apply bind_inv in H as (? & ? & _ & H)). by injection H as <- <-.
Qed.
Lemma forM_tt {A} (f : A -> M unit) l h u h' : forM l f h = Ok (u, h') -> u = tt.
Proof. by destruct u. Qed.
Lemma project_lookup {A} (cols : list string) (m : gmap key A) k c :
  filter (fun p : key * A => p.1.2 ∈ cols) m !! (k, c) = if decide (c ∈ cols) then m !! (k, c) else None.
Proof.
  destruct (decide (c ∈ cols)) as [Hc|Hc].
  - apply option_eq. intros x. rewrite map_filter_lookup_Some. simpl. naive_solver.
  - apply map_filter_lookup_None. right. intros x _. done.
Qed.
Section ind.
Context {rt : GoRT}.
Lemma hash_strings_view_ind d cols h v h' : hash_strings_view d cols h = Ok (v, h') -> d_ind v = d_ind d.
Proof.
  unfold hash_strings_view. destruct (decide (cols = [])); [by intros [= <- <-]|]. intros H.
  apply bind_inv in H as (m & h1 & _ & H). apply bind_inv in H as (r & h2 & E & H). apply column_view_ind in E.
  repeat (apply bind_inv in H as (? & ? & _ & H)). by injection H as <- <-.
Qed.
Lemma oh_transform_ind e d h v h' : oh_transform e d h = Ok (Some v, h') -> d_ind v = d_ind d.
Proof.
  unfold oh_transform. destruct (decide (en_cats e = [])); [by intros [= <- <-]|]. intros H.
  apply bind_inv in H as (r & h1 & E & H). apply bind_inv in H as (m & h2 & _ & H). apply bind_inv in H as (errs & h3 & _ & H).
  unfold oh_prepare in E. apply bind_inv in E as (rr & h4 & _ & E). injection E as <- <-.
  unfold oh_finish in H. destruct (existsb snd errs); [done|]. apply bind_inv in H as (? & ? & _ & H). by injection H as <- <-.
Qed.

Context (order : gset string -> list string) (Ho : forall X, order X ≡ₚ elements X).
Context (ord : string -> bool -> gset Z -> list Z) (Hord : forall c b X, ord c b X ≡ₚ elements X).

(** The view the imputer and the scaler are trained on. *)
Lemma float_view h d opt : wf h d ->
  let cols := order (names_of KFloat (mp h (r_maps (d_raw d))) ∖ list_to_set (ao_exclude opt)) in
  exists v h', column_view d cols h = Ok (v, h') /\ ext h h' /\ wf h' v /\
    (forall c, is_Some (t_cols (abs h' v) !! (KFloat, c)) <-> float_used opt (abs h d) c) /\
    (forall c, float_used opt (abs h d) c -> t_floats (abs h' v) c = t_floats (abs h d) c) /\
    (cols = [] \/ forall c, c ∈ cols <-> float_used opt (abs h d) c).
Proof.
  intros W cols. assert (Hin : forall c, c ∈ cols <-> is_Some (t_cols (abs h d) !! (KFloat, c)) /\ c ∉ ao_exclude opt).
  { intros c. unfold cols. rewrite (proj2 (proj2 (order_nodup order _ (Ho _)))), elem_of_difference, names_float, elem_of_list_to_set. done. }
  destruct (decide (cols = [])) as [E|E].
  - rewrite E, column_view_nil. exists (view d), h. split; [done|]. split; [apply ext_refl|]. split; [by apply wf_view|]. rewrite abs_view.
    split; [|split; [done|by left]]. intros c. unfold float_used. split; [|by intros [? _]]. intros Hc. split; [done|]. right. intros c' Hc'.
    destruct (decide (c' ∈ ao_exclude opt)) as [|Hn]; [done|]. exfalso. assert (Hx : c' ∈ cols) by (by apply Hin). rewrite E in Hx. by apply elem_of_nil in Hx.
  - destruct (column_view_spec h d cols W E) as (v & h' & EV & Ea & Wv & X & _). exists v, h'. do 3 (split; [done|]).
    assert (HU : forall c, float_used opt (abs h d) c <-> c ∈ cols).
    { intros c. unfold float_used. rewrite Hin. split; [|by intros [? ?]; split; [|left]]. intros [H1 [H2|H2]]; [done|]. exfalso.
      destruct cols as [|x cols']; [done|]. destruct (proj1 (Hin x)) as [Hx1 Hx2]; [by left|]. by apply Hx2, H2. }
    assert (HP : forall c, t_cols (abs h' v) !! (KFloat, c) = if decide (c ∈ cols) then t_cols (abs h d) !! (KFloat, c) else None).
    { intros c. rewrite Ea. unfold t_project. cbn [t_cols]. by apply project_lookup. }
    split; [|split; [|right; intros c; by rewrite HU]].
    + intros c. rewrite HP, HU. destruct (decide (c ∈ cols)) as [Hc|Hc]; [|split; [by intros []|done]]. split; [done|]. intros _. by apply Hin.
    + intros c Hc. unfold t_floats. rewrite HP, decide_True by (by apply HU). done.
Qed.

(** Training the imputer and the scaler. *)
Lemma fit_floats_spec opt h d : wf h d ->
  let cols := order (names_of KFloat (mp h (r_maps (d_raw d))) ∖ list_to_set (ao_exclude opt)) in
  exists im sc h', auto_fit_floats order (new_auto opt) d cols h = Ok (Auto None None im sc opt, h') /\ ext h h' /\
    match im with
    | Some f => ao_imputing opt = true /\
        forall c, (c ∈ dom f <-> float_used opt (abs h d) c) /\
                  (float_used opt (abs h d) c -> f !! c = Some (mean_of f64_arith (t_floats (abs h d) c) : f64))
    | None => ao_imputing opt = false
    end /\
    match sc with
    | Some s => ao_scaling opt = true /\
        forall c, (c ∈ dom (sc_shift s) <-> float_used opt (abs h d) c) /\ (c ∈ dom (sc_scale s) <-> float_used opt (abs h d) c) /\
                  (float_used opt (abs h d) c -> sc_shift s !! c = (fit_col f64_arith auto_sc (t_floats (abs h d) c)).1 /\
                                         sc_scale s !! c = (fit_col f64_arith auto_sc (t_floats (abs h d) c)).2)
    | None => ao_scaling opt = false
    end.
Proof.
  intros W cols. destruct (float_view h d opt W) as (v & h' & EV & X & Wv & H1 & H2 & _). fold cols in EV.
  unfold auto_fit_floats. cbn [ap_opt new_auto].
  destruct (ao_imputing opt || ao_scaling opt) eqn:EO.
  2:{ apply orb_false_iff in EO as [-> ->]. exists None, None, h. split; [done|]. split; [apply ext_refl|done]. }
  rewrite (bind_eq _ _ _ _ _ EV). cbn [ap_imputer ap_scaler ap_hash ap_onehot].
  assert (HI : exists im, (if ao_imputing opt then let* f := imputer_fit order IMean v in ret (Some f) else ret None) h' = Ok (im, h') /\
    match im with
    | Some f => ao_imputing opt = true /\
        forall c, (c ∈ dom f <-> float_used opt (abs h d) c) /\
                  (float_used opt (abs h d) c -> f !! c = Some (mean_of f64_arith (t_floats (abs h d) c) : f64))
    | None => ao_imputing opt = false
    end).
  { destruct (ao_imputing opt); [|by exists None]. destruct (imputer_fit_spec order IMean h' v Wv Ho) as (f & E & Hf). exists (Some f).
    rewrite (bind_eq _ _ _ _ _ E). split; [done|]. split; [done|]. intros c. specialize (Hf c). rewrite elem_of_dom. split.
    - rewrite Hf, <- H1. destruct (decide _) as [Hd|Hd]; split; try done. by intros [].
    - intros Hu. rewrite <- H2 by done. rewrite decide_True in Hf by (by apply H1). done. }
  destruct HI as (im & EI & HI). rewrite (bind_eq _ _ _ _ _ EI).
  assert (HS : exists sc, (if ao_scaling opt then let* s := scaler_fit order auto_sc v in ret (Some s) else ret None) h' = Ok (sc, h') /\
    match sc with
    | Some s => ao_scaling opt = true /\
        forall c, (c ∈ dom (sc_shift s) <-> float_used opt (abs h d) c) /\ (c ∈ dom (sc_scale s) <-> float_used opt (abs h d) c) /\
                  (float_used opt (abs h d) c -> sc_shift s !! c = (fit_col f64_arith auto_sc (t_floats (abs h d) c)).1 /\
                                         sc_scale s !! c = (fit_col f64_arith auto_sc (t_floats (abs h d) c)).2)
    | None => ao_scaling opt = false
    end).
  { destruct (ao_scaling opt); [|by exists None]. destruct (C50_fit_main order auto_sc h' v Wv Ho) as (s & E & Hf & _). exists (Some s).
    rewrite (bind_eq _ _ _ _ _ E). split; [done|]. split; [done|]. intros c. destruct (Hf c) as [F1 F2].
    assert (EC : spec_fit auto_sc (abs h' v) c = if decide (is_Some (t_cols (abs h' v) !! (KFloat, c))) then Some (fit_col f64_arith auto_sc (t_floats (abs h' v) c)) else None) by done.
    rewrite EC in F1, F2. clear EC. split; [|split].
    - rewrite elem_of_dom, <- H1. destruct (decide _) as [Hd|Hd]; (split; [|first [done|intros _; eexists; first [exact F1|exact F2]]]).
      + done.
      + intros [x Hx]. exfalso. pose proof (eq_trans (eq_sym F1) Hx) as Hy. done.
    - rewrite elem_of_dom, <- H1. destruct (decide _) as [Hd|Hd]; (split; [|first [done|intros _; eexists; first [exact F1|exact F2]]]).
      + done.
      + intros [x Hx]. exfalso. pose proof (eq_trans (eq_sym F2) Hx) as Hy. done.
    - intros Hu. rewrite <- H2 by done. rewrite decide_True in F1 by (by apply H1). rewrite decide_True in F2 by (by apply H1). done. }
  destruct HS as (sc & ES & HS). rewrite (bind_eq _ _ _ _ _ ES). exists im, sc, h'. split; [done|]. done.
Qed.
End ind.
