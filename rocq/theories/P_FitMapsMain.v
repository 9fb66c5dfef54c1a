(** C87: OneHotEncoder.Fit does not race on the maps of the encoder. *)
From Verif Require Import P_Exec.
From Verif Require Export M_FitMaps.
From Verif Require Import P_FilesMain P_OneHot2 P_OneHotMain P_PrepPool P_PrepMain P_PoolMain P_RaceMain P_View3.
From stdpp Require Import strings list.
From Verif Require Import P_Base P_Check.

(** The addresses. *)
Lemma col_arr_find L cols c : c ∈ cols -> exists i, list_find (c =.) cols = Some (i, c) /\ col_arr L cols c = L + 1 + i /\ i < length cols.
Proof.
  intros Hc. destruct (list_find_elem_of (c =.) cols c Hc eq_refl) as [[i x] E].
  pose proof E as (Hi & -> & _)%list_find_Some. exists i. split; [done|]. split; [unfold col_arr; by rewrite E|]. by eapply lookup_lt_Some.
Qed.
Lemma col_arr_inj L cols c c' : c ∈ cols -> c' ∈ cols -> col_arr L cols c = col_arr L cols c' -> c = c'.
Proof.
  intros (i & Ei & Ai & _)%(col_arr_find L) (j & Ej & Aj & _)%(col_arr_find L) E. assert (i = j) as <- by lia.
  apply list_find_Some in Ei as (Hi & _). apply list_find_Some in Ej as (Hj & _). congruence.
Qed.
Lemma new_maps_ext cols h : ext h (new_maps cols h).
Proof. split; simpl; try done. by eexists. Qed.
Lemma new_maps_arr cols h c : c ∈ cols -> h_arr (new_maps cols h) !! col_arr (length (h_arr h)) cols c = Some col_cells.
Proof.
  intros (i & _ & -> & Hi)%(col_arr_find (length (h_arr h))). simpl. rewrite lookup_app_r by lia.
  replace (length (h_arr h) + 1 + i - length (h_arr h)) with (S i) by lia. simpl. by apply lookup_replicate_2.
Qed.

(** What the job touches. *)
Section fp.
Context {R : Type} (rs ws : addr -> Prop) (own : nat).
Context (Hr : forall i, rs (own, i)) (Hw : forall i, ws (own, i)).
Lemma put_cats_fp n (k : job R) i : fp rs ws k -> fp rs ws (put_cats (own, i) n k).
Proof using Hr Hw. intros H. induction n as [|n IH]; [done|]. simpl. constructor; [apply Hr|]. intros v. constructor; [apply Hw|done]. Qed.
Lemma put_missing_fp opt seen fb0 (k : job R) : fp rs ws k -> fp rs ws (put_missing opt seen own fb0 k).
Proof using Hr Hw.
  intros H. unfold put_missing. destruct (oh_missing opt); try done; [destruct seen| |]; repeat (constructor || apply Hr || apply Hw || done || intros ?).
Qed.
Lemma put_unknown_fp opt fb1 (k : job R) : fp rs ws k -> fp rs ws (put_unknown opt own fb1 k).
Proof using Hr Hw.
  intros H. unfold put_unknown. destruct (oh_unknown opt); try done; repeat (constructor || apply Hr || apply Hw || done || intros ?).
Qed.
End fp.

(** What it does alone. *)
Section run.
Context {R : Type}.
Lemma mem_own h own cells i v : h_arr h !! own = Some cells -> cells !! i = Some v -> mem_get h (own, i) = Some v.
Proof. intros H1 H2. unfold mem_get, arr. simpl. by rewrite H1. Qed.
Lemma mem_set_own h own cells i v : h_arr h !! own = Some cells -> mem_set h (own, i) v = set_arr h own (<[i := v]> cells).
Proof. intros H1. unfold mem_set, arr. simpl. by rewrite H1. Qed.
Lemma set_arr_lookup h own cells cells' : h_arr h !! own = Some cells -> h_arr (set_arr h own cells') !! own = Some cells'.
Proof. intros H. simpl. apply list_lookup_insert. by eapply lookup_lt_Some. Qed.
Lemma set_arr_twice h own a b : set_arr (set_arr h own a) own b = set_arr h own b.
Proof. unfold set_arr. simpl. by rewrite list_insert_insert. Qed.
Lemma set_arr_id h own a : h_arr h !! own = Some a -> set_arr h own a = h.
Proof. intros H. unfold set_arr. rewrite list_insert_id by done. by destruct h. Qed.

Lemma put_cats_run own n (k : job R) : forall h z a b, h_arr h !! own = Some [VInt z; a; b] ->
  run_job (put_cats (own, 0) n k) h = run_job k (set_arr h own [VInt (z + Z.of_nat n); a; b]).
Proof.
  induction n as [|n IH]; intros h z a b H.
  - simpl. by rewrite Z.add_0_r, set_arr_id.
  - cbn [put_cats run_job]. rewrite (mem_own h own _ 0 (VInt z) H eq_refl).
    rewrite (mem_set_own _ _ _ 0 _ H). simpl. rewrite (IH _ (z + 1)%Z a b) by (by eapply set_arr_lookup).
    rewrite set_arr_twice. by replace (z + 1 + Z.of_nat n)%Z with (z + Z.of_nat (S n))%Z by lia.
Qed.
Lemma put_missing_run opt seen own fb0 (k : job R) h a b :
  h_arr h !! own = Some [a; VObj (OStr ""); b] -> (oh_missing opt = PShared \/ oh_missing opt = PError -> fb0 = "") ->
  run_job (put_missing opt seen own fb0 k) h = run_job k (set_arr h own [a; VObj (OStr fb0); b]).
Proof.
  intros H Hfb. unfold put_missing.
  assert (Hw : run_job (JWr (own, 1) (VObj (OStr fb0)) k) h = run_job k (set_arr h own [a; VObj (OStr fb0); b])).
  { cbn [run_job]. rewrite (mem_own h own _ 1 _ H eq_refl). by rewrite (mem_set_own _ _ _ 1 _ H). }
  assert (Hrd : run_job (JRd (own, 0) (fun _ => JWr (own, 1) (VObj (OStr fb0)) k)) h = run_job k (set_arr h own [a; VObj (OStr fb0); b])).
  { cbn [run_job]. rewrite (mem_own h own _ 0 _ H eq_refl). exact Hw. }
  destruct (oh_missing opt); try done; [by destruct seen| |]; rewrite Hfb by auto; by rewrite set_arr_id.
Qed.
Lemma put_unknown_run opt own fb0 fb1 (k : job R) h a :
  h_arr h !! own = Some [a; VObj (OStr fb0); VObj (OStr "")] ->
  (oh_unknown opt = PIfSeen \/ oh_unknown opt = PError -> fb1 = "") -> (oh_unknown opt = PShared -> fb1 = fb0) ->
  run_job (put_unknown opt own fb1 k) h = run_job k (set_arr h own [a; VObj (OStr fb0); VObj (OStr fb1)]).
Proof.
  intros H Hfb Hsh. unfold put_unknown.
  assert (Hw : run_job (JWr (own, 2) (VObj (OStr fb1)) k) h = run_job k (set_arr h own [a; VObj (OStr fb0); VObj (OStr fb1)])).
  { cbn [run_job]. rewrite (mem_own h own _ 2 _ H eq_refl). by rewrite (mem_set_own _ _ _ 2 _ H). }
  destruct (oh_unknown opt); try done.
  - rewrite Hfb by auto. by rewrite set_arr_id.
  - rewrite Hsh in * by done. cbn [run_job]. rewrite (mem_own h own _ 1 _ H eq_refl). exact Hw.
  - cbn [run_job]. rewrite (mem_own h own _ 0 _ H eq_refl). exact Hw.
  - rewrite Hfb by auto. by rewrite set_arr_id.
Qed.
End run.

Section frame.
Context {rt : GoRT}.

(** The contents of the cells of a column in the end. *)
Definition fitted_cells (r : gmap Z string * (string * string)) : list val :=
  [VInt (Z.of_nat (size r.1)); VObj (OStr r.2.1); VObj (OStr r.2.2)].

Lemma fit_cats_fb opt ord c zs : let r := fit_cats opt ord c zs in
  (oh_missing opt = PShared \/ oh_missing opt = PError -> r.2.1 = "") /\
  (oh_unknown opt = PIfSeen \/ oh_unknown opt = PError -> r.2.2 = "") /\ (oh_unknown opt = PShared -> r.2.2 = r.2.1).
Proof. unfold fit_cats. cbv zeta. simpl. split; [by intros [-> | ->]|]. split; [by intros [-> | ->]|]. by intros ->. Qed.

Section fit.
Context (opt : oh_opt) (ord : string -> bool -> gset Z -> list Z) (cols : list string) (h : heap) (d : dframe).
Context (W : wf h d) (Hc : forall c, c ∈ cols -> is_Some (t_cols (abs h d) !! (KInt, c))).
Notation L := (length (h_arr h)).
Notation res c := (fit_cats opt (ord c) c (t_ints (abs h d) c)).
Notation prog := (fit_maps_job opt ord (mp h (r_maps (d_raw d))) d L cols).

Lemma fit_maps_run h1 c : ext h h1 -> h_arr h1 !! L = Some [VObj ONil; VObj ONil] ->
  c ∈ cols -> h_arr h1 !! col_arr L cols c = Some col_cells ->
  run_job (prog c) h1 = Some (res c, set_arr h1 (col_arr L cols c) (fitted_cells (res c))).
Proof using W Hc.
  intros X HL Hin Hown. destruct (Hc c Hin) as [col Hcol]. destruct W as [n Wn]. unfold fit_maps_job.
  rewrite abs_cols_lookup in Hcol. destruct (mp h (r_maps (d_raw d)) !! (KInt, c)) as [s|] eqn:Es; [|done].
  assert (W1 : wfn h1 d n) by (by eapply ext_wfn).
  assert (Es1 : mp h1 (r_maps (d_raw d)) !! (KInt, c) = Some s) by (by rewrite (ext_mp _ _ _ X) by apply Wn).
  destruct (gather_col h1 d n _ s W1 Es1) as [E1 E2]. rewrite (read_job_run _ _ _ _ _ _ E1). cbv zeta.
  change (reverse [] ++ pick (inds d) (sl_vals h1 s)) with (pick (inds d) (sl_vals h1 s)).
  assert (Ei : int_of <$> pick (inds d) (sl_vals h1 s) = t_ints (abs h d) c).
  { unfold t_ints. rewrite <- (ext_abs _ _ d X) by (by exists n). rewrite E2. done. }
  rewrite Ei. set (r := res c). destruct (fit_cats_fb opt (ord c) c (t_ints (abs h d) c)) as (F1 & F2 & F3). fold r in F1, F2, F3.
  set (own := col_arr L cols c) in *.
  assert (Hne : own <> L) by (unfold own, col_arr; lia).
  cbn [run_job]. rewrite (mem_own h1 L _ 0 _ HL eq_refl). rewrite (put_cats_run own _ _ h1 0 _ _ Hown).
  cbn [run_job]. set (h2 := set_arr h1 own _).
  assert (HL2 : h_arr h2 !! L = Some [VObj ONil; VObj ONil]) by (unfold h2; simpl; by rewrite list_lookup_insert_ne).
  rewrite (mem_own h2 L _ 1 _ HL2 eq_refl).
  rewrite (put_missing_run opt _ own r.2.1 _ h2 (VInt (0 + Z.of_nat (size r.1))) (VObj (OStr "")));
    [|by eapply set_arr_lookup|exact F1].
  unfold h2. rewrite set_arr_twice.
  rewrite (put_unknown_run opt own r.2.1 r.2.2 _ _ (VInt (0 + Z.of_nat (size r.1)))); [|by eapply set_arr_lookup|exact F2|exact F3].
  rewrite set_arr_twice. cbn [run_job]. unfold fitted_cells. by rewrite Z.add_0_l.
Qed.

Lemma fit_maps_seq : NoDup cols -> forall todo h1, NoDup todo -> (forall c, c ∈ todo -> c ∈ cols) ->
  ext h h1 -> h_arr h1 !! L = Some [VObj ONil; VObj ONil] ->
  (forall c, c ∈ todo -> h_arr h1 !! col_arr L cols c = Some col_cells) ->
  exists h2, seq_all ((fun c => (c, prog c)) <$> todo) h1 = Some ((fun c => (c, res c)) <$> todo, h2) /\
    ext h h2 /\
    (forall c, c ∈ todo -> h_arr h2 !! col_arr L cols c = Some (fitted_cells (res c))) /\
    (forall a, (forall c, c ∈ todo -> a <> col_arr L cols c) -> h_arr h2 !! a = h_arr h1 !! a).
Proof using W Hc.
  intros Hnd. induction todo as [|c todo IH]; intros h1 N Hsub X HL Hown.
  - exists h1. split; [done|]. split; [done|]. split; [intros c Hx; by apply elem_of_nil in Hx|done].
  - apply NoDup_cons in N as [Nc N]. assert (Hin : c ∈ cols) by (apply Hsub; by left).
    rewrite !fmap_cons. cbn [seq_all]. rewrite (fit_maps_run h1 c X HL Hin) by (apply Hown; by left).
    set (own := col_arr L cols c). set (h1' := set_arr h1 own _).
    assert (Hother : forall c', c' ∈ todo -> col_arr L cols c' <> own).
    { intros c' Hc' E. apply col_arr_inj in E as ->; [done|apply Hsub; by right|done]. }
    assert (X1 : ext h h1').
    { destruct X as [[tl X1] X2 X3 X4 X5]. split; try done. simpl. rewrite X1.
      rewrite insert_app_r_alt by (unfold own, col_arr; lia). by eexists. }
    destruct (IH h1') as (h2 & E2 & X2 & R2 & O2); [done|intros c' ?; apply Hsub; by right|done| | |].
    { simpl. rewrite list_lookup_insert_ne; [done|]. unfold own, col_arr. lia. }
    { intros c' Hc'. simpl. rewrite list_lookup_insert_ne by (by apply not_eq_sym, Hother). apply Hown. by right. }
    exists h2. rewrite E2. split; [done|]. split; [done|]. split.
    + intros c' [->|Hc']%elem_of_cons; [|by apply R2].
      rewrite O2 by (intros c' Hc'; by apply not_eq_sym, Hother). simpl. apply list_lookup_insert.
      eapply lookup_lt_Some. apply Hown. by left.
    + intros a Ha. rewrite O2 by (intros c' Hc'; apply Ha; by right). simpl. rewrite list_lookup_insert_ne; [done|].
      apply not_eq_sym, Ha. by left.
Qed.

Definition maps_rs (c : string) (a : addr) : Prop := c ∈ cols /\ (a.1 <= L \/ a.1 = col_arr L cols c).
Definition maps_ws (c : string) (a : addr) : Prop := c ∈ cols /\ a.1 = col_arr L cols c.
Lemma maps_disjoint c c' a : c <> c' -> maps_ws c a -> ~ maps_rs c' a /\ ~ maps_ws c' a.
Proof using.
  intros Hne [H1 H2]. assert (a.1 > L) by (rewrite H2; unfold col_arr; lia).
  assert (c' ∈ cols -> a.1 <> col_arr L cols c').
  { intros H3 H4. apply Hne. eapply (col_arr_inj L cols); [done|done|congruence]. }
  split; [intros [? [?|?]]; [lia|naive_solver]|intros [??]; naive_solver].
Qed.
Lemma fit_maps_fp c : c ∈ cols -> fp (maps_rs c) (maps_ws c) (prog c).
Proof using W Hc.
  intros Hin. unfold fit_maps_job. destruct (_ !! (KInt, c)) as [s|] eqn:Es; [|constructor].
  destruct W as [n Wn]. destruct (wfn_col _ _ _ _ _ Wn Es) as (Hcs & Hln & _).
  apply read_job_fp.
  - intros i Hi. split; [done|]. left. simpl. pose proof (wf_rng _ _ _ Wn) as Hr. rewrite Forall_forall in Hr. specialize (Hr i Hi).
    destruct (col_ok_arr_cases _ _ _ Hcs) as [?|(? & _)]; lia.
  - intros vs. cbv zeta. constructor; [split; [done|by left]|]. intros _.
    assert (Hr : forall i, maps_rs c (col_arr L cols c, i)) by (intros i; split; [done|by right]).
    assert (Hw : forall i, maps_ws c (col_arr L cols c, i)) by (intros i; split; done).
    apply put_cats_fp; [done|done|]. constructor; [split; [done|by left]|]. intros _.
    apply put_missing_fp; [done|done|]. apply put_unknown_fp; [done|done|]. constructor.
Qed.
End fit.

Lemma C87_fit_maps_main : forall (opt : oh_opt) (ord : string -> bool -> gset Z -> list Z) (cols : list string) (h : heap) (d : dframe),
  wf h d -> NoDup cols -> "" ∉ cols -> (forall c, c ∈ cols -> is_Some (t_cols (abs h d) !! (KInt, c))) ->
  let L := length (h_arr h) in
  let prog := fit_maps_job opt ord (mp h (r_maps (d_raw d))) d L cols in
  forall deferred max_workers rnd q w m s, create_queue rnd cols max_workers = (q, w) ->
    steps deferred (length cols) prog m (pool_init q w (new_maps cols h)) s ->
    ~ race s /\ p_crash s = false /\
    (* after Wait, the maps hold what was computed for each column *)
    (closed (length cols) s -> forall c, c ∈ cols ->
       h_arr (p_heap s) !! col_arr L cols c = Some (fitted_cells (fit_cats opt (ord c) c (t_ints (abs h d) c))) /\
       abs (p_heap s) d = abs h d).
Proof.
  intros opt ord cols h d W Hnd He Hc L prog deferred mw rnd q w m s Eq Hst.
  assert (Hfp : forall k, k ∈ cols -> fp (maps_rs cols h k) (maps_ws cols h k) (prog k)) by (intros; by apply fit_maps_fp).
  split.
  { eapply (C87_no_race_main _ deferred prog (maps_rs cols h) (maps_ws cols h)); [exact Hnd|exact Hfp| |exact Eq|exact Hst].
    intros; by eapply maps_disjoint. }
  assert (HL : h_arr (new_maps cols h) !! L = Some [VObj ONil; VObj ONil]).
  { simpl. rewrite lookup_app_r by (unfold L; lia). unfold L. by rewrite Nat.sub_diag. }
  destruct (fit_maps_seq opt ord cols h d W Hc Hnd cols (new_maps cols h)) as (h2 & E2 & X2 & R2 & _); try done.
  { apply new_maps_ext. }
  { intros c Hin. by apply new_maps_arr. }
  destruct (C42_schedules_agree_partial_main _ deferred prog (maps_rs cols h) (maps_ws cols h) rnd cols mw (new_maps cols h) q w m s _ h2
    Hnd He Hfp (maps_disjoint cols h) E2 Eq Hst) as [Hcr Hcl].
  split; [done|]. intros Hclosed c Hin. destruct (Hcl Hclosed) as [-> _]. split; [by apply R2|]. by apply ext_abs.
Qed.
End frame.

(** Two int columns. *)
Definition fm_df : dframe * heap := mk_df heap0 [(KInt, "a", [VInt 4; VInt (-1); VInt 4]); (KInt, "b", [VInt 1; VInt 1; VInt 2])] [].
Definition fm_opt : oh_opt := OhOpt PIfSeen PShared false.
Definition fm_ord (c : string) (b : bool) (X : gset Z) : list Z := elements X.
Definition fm_cols : list string := ["a"; "b"].
Lemma C87_fit_maps_case_main : wf fm_df.2 fm_df.1 /\ NoDup fm_cols /\ "" ∉ fm_cols /\
  (forall c, c ∈ fm_cols -> is_Some (t_cols (abs fm_df.2 fm_df.1) !! (KInt, c))) /\
  fitted_cells (fit_cats fm_opt (fm_ord "a") "a" (t_ints (abs fm_df.2 fm_df.1) "a")) = [VInt 1; VObj (OStr "a_missing"); VObj (OStr "a_missing")].
Proof.
  split; [apply (wf_check_sound _ _ 3); by vm_compute|]. split; [apply (bool_decide_unpack _); by vm_compute|].
  split; [apply (bool_decide_unpack _); by vm_compute|].
  split; [intros c [->|[->|Hc%elem_of_nil]%elem_of_cons]%elem_of_cons; try done; apply (bool_decide_unpack _); by vm_compute|by vm_compute].
Qed.
(** Were Categories[col] made by the worker of that column, two workers would
    write to the map Categories at the same time. *)
Lemma C87_late_maps_case_main : forall (R : Type) (prog : string -> job R) (h : heap) (L : nat),
  let late (c : string) := JWr (L, 0) (VObj ONil) (prog c) in
  exists s, steps true 2 late 2 (pool_init ["a"; "b"] 2 h) s /\ race s.
Proof.
  intros R prog h L late.
  exists (Pool [] [Worker (WRun "a" (late "a")) [] ["a"]; Worker (WRun "b" (late "b")) [] ["b"]] [] [] h false). split.
  - by apply (exec_steps true 2 late [Some 0; Some 1]).
  - eexists 0, 1, _, _, _, _. split; [done|]. split; [reflexivity|]. split; [reflexivity|]. split; reflexivity.
Qed.
