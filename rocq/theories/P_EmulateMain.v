(** C99 In-place transformations as view transformations. *)
From Verif Require Import P_PrepMain P_Auto3.
From Verif Require Import P_Check.

Section emulate.
Context {rt : GoRT} (order : gset string -> list string) (Ho : forall X, order X ≡ₚ elements X).
Lemma order_set X : list_to_set (order X) = X.
Proof. by destruct (order_nodup order X (Ho X)) as (_ & E & _). Qed.
Lemma C99_scaler_main sc h d : wf h d -> (forall c, c ∈ spec_cols sc -> is_Some (t_cols (abs h d) !! (KFloat, c))) ->
  exists v h1 h2, detached_view d (order (spec_cols sc)) h = Ok (v, h1) /\ scaler_transform order sc v h1 = Ok (tt, h2) /\
    wf h2 v /\ preserved h h2 /\ inds v = inds d /\
    (NoDup (inds d) -> abs h2 v = t_update (spec_cols sc) (spec_scaled sc) (abs h d)).
Proof.
  intros W HF. destruct (detach_prep h d (order (spec_cols sc)) (spec_cols sc) W) as (v & h1 & E1 & P1); [right; apply order_set|done|].
  destruct (scale_prep order Ho sc h d (abs h d) h1 v (spec_cols sc) P1 eq_refl HF) as (h2 & E2 & P2).
  destruct P1 as ((X1 & W1 & O1 & _) & I1 & A1). destruct P2 as ((X2 & W2 & _ & _) & _ & _).
  assert (EI : inds v = inds d) by (unfold inds; by rewrite I1).
  exists v, h1, h2. split; [done|]. split; [done|]. split; [done|]. split; [by apply ext_preserved|]. split; [done|]. intros Hnd.
  destruct (C53_each_value_once_main order sc h1 v W1 Ho) as (h2' & E2' & _ & A2 & _); [by rewrite A1|by rewrite EI|done|].
  rewrite E2 in E2'. injection E2' as <-. by rewrite A2, A1.
Qed.
Lemma C99_imputer_main fb h d : wf h d -> (forall c, c ∈ dom fb -> is_Some (t_cols (abs h d) !! (KFloat, c))) ->
  exists v h1 h2, detached_view d (order (dom fb)) h = Ok (v, h1) /\ imputer_transform order fb v h1 = Ok (tt, h2) /\
    wf h2 v /\ preserved h h2 /\ abs h2 v = t_update (dom fb) (spec_impute fb) (abs h d).
Proof.
  intros W HF. destruct (detach_prep h d (order (dom fb)) (dom fb) W) as (v & h1 & E1 & P1); [right; apply order_set|done|].
  destruct P1 as ((X1 & W1 & O1 & Y1) & I1 & A1).
  destruct (impute_prep order Ho fb h d (abs h d) h1 v (dom fb)) as (h2 & E2 & P2); [by split|done|done|].
  destruct P2 as ((X2 & W2 & _ & _) & _ & _).
  exists v, h1, h2. split; [done|]. split; [done|]. split; [done|]. split; [by apply ext_preserved|].
  pose proof (C54_transform_main order fb h1 v W1 Ho O1) as H. rewrite E2 in H. destruct H as (_ & _ & H & _). by rewrite H, A1.
Qed.
(** View shares its cells with the original, which is transformed too. *)
Lemma C99_view_main sc h d : wf h d -> (forall c, c ∈ spec_cols sc -> is_Some (t_cols (abs h d) !! (KFloat, c))) ->
  NoDup (inds d) -> own_cells h d (spec_cols sc) ->
  exists h', scaler_transform order sc (view d) h = Ok (tt, h') /\
    abs h' d = t_update (spec_cols sc) (spec_scaled sc) (abs h d) /\ abs h' (view d) = abs h' d.
Proof.
  intros W HF Hnd Hown. destruct (C53_each_value_once_main order sc h (view d)) as (h' & E & _ & A & _);
    [by apply wf_view|done|done|done|exact Hown|].
  exists h'. split; [done|]. split; [exact A|done].
Qed.
End emulate.

Section wit.
Existing Instance ex_rt.
Definition c99_run (d : dframe) (h : heap) : option (list f64 * list f64) :=
  match (let* v := detached_view d ["b"] in scaler_transform elts c53_sc v ;;* ret v) h with
  | Ok (v, h') => Some (t_floats (abs h' v) "b", t_floats (abs h' d) "b")
  | Panic => None
  end.
Lemma C99_check_main : wf ex_h ex_d /\ NoDup (inds ex_d) /\
  (forall c, c ∈ spec_cols c53_sc -> is_Some (t_cols (abs ex_h ex_d) !! (KFloat, c))) /\
  t_floats (abs ex_h ex_d) "b" = [f_half; fz 0; fz 1; fz 1] /\
  c99_run ex_d ex_h = Some ([fz 3; fz 2; fz 4; fz 4], [f_half; fz 0; fz 1; fz 1]).
Proof. destruct C53_check_main as (A & B & C & _). split; [done|]. split; [done|]. split; [done|]. split; by vm_compute. Qed.
(** The recipe of preprocessing/interfaces.go:46-48. *)
Definition c99_h : heap := run_unit2 (scaler_transform elts c53_sc (view ex_d)) ex_h.
Lemma C99_view_refuted_main : exists h d h', wf h d /\ scaler_transform elts c53_sc (view d) h = Ok (tt, h') /\
  t_floats (abs h d) "b" = [f_half; fz 0; fz 1; fz 1] /\ t_floats (abs h' d) "b" = [fz 3; fz 2; fz 4; fz 4].
Proof.
  exists ex_h, ex_d, c99_h. destruct C53_check_main as (A & _). split; [done|]. split; [by vm_compute|]. split; by vm_compute.
Qed.
End wit.
