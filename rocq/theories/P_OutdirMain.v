(** The files of examples/linreg.go: C96. *)
From Verif Require Import M_Outdir M_Strconv.
From Verif Require Import P_Exec.
From Verif Require Import P_Cpu P_ExampleMain P_TextMain P_ProgramMain P_CsvMain Spec_Output P_OutputMain M_Outdir P_Base P_Check.
Local Open Scope nat_scope.

(** ** Index views stay index views *)
Section views.
Context {rt : GoRT}.
Definition vw (b : bool) (d : dframe) : Prop := d_viewed d = b.
Ltac pany := eapply post_bind; [apply post_any|intros ? _].
Ltac pret := apply post_ret; unfold vw in *; simpl in *; try done; try congruence.
Ltac puse L := eapply post_bind; [apply L|intros ? ?].
Lemma vw_shuffle rnd d : post (shuffle_view rnd d) (vw true).
Proof. unfold shuffle_view, index_view. do 2 pany. pret. Qed.
Lemma vw_cut d a b : d_viewed d = true -> post (cut d a b) (vw true).
Proof. intros H. unfold cut. pany. rewrite H. cbn [orb]. pany. pret. Qed.
Lemma vw_slice d a b : d_viewed d = true -> post (slice_view d a b) (vw true).
Proof. intros H. unfold slice_view. cbv zeta. destruct (decide (_ > _)%Z); by apply vw_cut. Qed.
Lemma vw_split d r : d_viewed d = true -> post (split_train_test d r) (fun p => d_viewed p.1 = true /\ d_viewed p.2 = true).
Proof.
  intros H. unfold split_train_test. destruct (_ || _); [apply post_panic|]. puse vw_slice; [done|]. puse vw_slice; [done|]. apply post_ret. done.
Qed.
Lemma vw_detached b d cols : d_viewed d = b -> post (detached_view d cols) (vw b).
Proof. intros H. unfold detached_view. pany. pret. Qed.
Lemma vw_columns b d cols : d_viewed d = b -> post (column_view d cols) (vw b).
Proof. intros H. unfold column_view. destruct (decide _); [pret|]. do 6 pany. pret. Qed.
Lemma vw_hash b d cols : d_viewed d = b -> post (hash_encoder_transform cols d) (vw b).
Proof.
  intros H. unfold hash_encoder_transform, hash_strings_view. destruct (decide _); [pret|]. pany. puse vw_columns; [exact H|]. do 2 pany. by apply post_ret.
Qed.
Lemma vw_onehot b e d : d_viewed d = b -> post (oh_transform e d) (fun x => forall w, x = Some w -> d_viewed w = b).
Proof.
  intros H. unfold oh_transform. destruct (decide _); [apply post_ret; intros w [= <-]; done|].
  eapply (post_bind _ _ (vw b)); [unfold oh_prepare; pany; pret|]. intros x Hx. do 2 pany. unfold oh_finish.
  destruct (existsb _ _); [by apply post_ret|]. pany. apply post_ret. intros w [= <-]. exact Hx.
Qed.
Lemma vw_floats order b p d : d_viewed d = b -> post (auto_transform_floats order p d) (vw b).
Proof.
  intros H. unfold auto_transform_floats. eapply (post_bind _ _ (vw b)).
  { destruct (ap_imputer p); [by apply vw_detached|]. destruct (ap_scaler p); [by apply vw_detached|by apply post_ret]. }
  intros x Hx. do 2 pany. by apply post_ret.
Qed.
Lemma vw_transform order b p d : d_viewed d = b -> post (auto_transform order p d) (fun x => forall w, x = Some w -> d_viewed w = b).
Proof.
  intros H. unfold auto_transform. puse (vw_floats order b); [exact H|]. eapply (post_bind _ _ (vw b)).
  { destruct (ap_hash p); [by apply vw_hash|by apply post_ret]. }
  intros x Hx. destruct (ap_onehot p); [by apply vw_onehot|]. apply post_ret. intros w [= <-]. exact Hx.
Qed.
Lemma vw_overwrite b k s d c vs : d_viewed d = b -> post (overwrite k s d c vs) (vw b).
Proof. intros H. unfold overwrite. pany. destruct (decide _); [do 3 pany; pret|pany; by apply post_ret]. Qed.
Lemma vw_predict bl order b reg d c : d_viewed d = b -> post (lr_predict bl order reg d c) (vw b).
Proof.
  intros H. unfold lr_predict. destruct (decide _); [apply post_panic|]. do 2 pany. eapply (post_bind _ _ (vw b)); [by apply vw_overwrite|].
  intros x Hx. destruct (lr_scaler reg); [|apply post_panic]. do 2 pany. pret.
Qed.
Lemma vw_example {jrt : JsonRT} bl order ord rnd norm rnds ratio imp sc target prm d :
  post (example bl order ord rnd norm rnds ratio imp sc target prm d) (fun x => d_viewed x.2 = true).
Proof.
  unfold example. eapply post_bind; [apply vw_shuffle|]. intros v Hv. eapply post_bind; [apply (vw_split _ _ Hv)|]. intros st [_ H2]. do 4 pany.
  eapply post_bind; [apply (vw_transform _ _ _ _ H2)|]. intros w Hw. eapply (post_bind _ _ (vw true)).
  { intros h x h' E. destruct w as [w|]; [|done]. injection E as <- <-. by apply Hw. }
  intros x Hx. eapply post_bind; [apply (vw_predict _ _ _ _ _ _ Hx)|]. intros y Hy. pany. apply post_ret. exact Hy.
Qed.
Lemma vw_program bl order ord mord dl text cpu exclude logs rnd norm rnds ratio imp sc target prm :
  post (program bl order ord mord dl text cpu exclude logs rnd norm rnds ratio imp sc target prm) (fun x => d_viewed x.2 = true).
Proof. unfold program. destruct (csv_open _ _ _) as [[header recs]|]; [|apply post_panic]. do 3 pany. apply vw_example. Qed.
End views.

Section main.
Context {rt : GoRT} (bl : blas f64_arith).
Context (order : gset string -> list string) (ord : string -> bool -> gset Z -> list Z) (mord : gmap key slice -> list (key * slice)).
Local Existing Instance go_crt.
(** Every row in the files is the same. *)
Lemma C96_rows_main : forall (dl : dialect) (text : string) (cpu : Z) (exclude : list string) (clogs : list (list string)) (rnd : nat -> nat) (norm : nat -> f64) (rnds : Z -> nat -> nat) (ratio : f64) (imp sc : bool) (target : string) (prm : lr_params f64_arith)
    (h h1 h2 : heap) (w d2 : dframe) (e : f64)
    (worder : nat -> nat -> gset string -> list string) (can : string -> bool)
    (fs fs' : disk) (paths arrival : list string) (logs : list (list (list string))),
  program bl order ord mord dl text cpu exclude clogs rnd norm rnds ratio imp sc target prm h = Ok ((e, w), h1) -> wf h1 w -> (1 <= actual_max_cpu (d_raw w))%Z ->
  (forall i, perm_order (worder i)) ->
  linreg_output mord worder can dl cpu exclude w fs arrival logs h1 = Ok ((paths, fs', false, d2), h2) ->
  exists same texts k, t_rows same = t_rows (abs h1 w) /\ dom (t_cols same) = dom (t_cols (abs h1 w)) /\ t_strs same = t_strs (abs h1 w) /\
    (forall key col, t_cols same !! key = Some col -> exists v, col = replicate (t_rows (abs h1 w)) v) /\
    Forall2 (csv_file (WDialect (di_comma dl) false) "") (pieces same (length paths)) texts /\
    Forall2 (fun p s => fs' !! p = Some s) paths (texts ++ replicate k (end_of_line (WDialect (di_comma dl) false))).
Proof.
  intros dl text cpu exclude clogs rnd norm rnds ratio imp sc target prm h h1 h2 w d2 e worder can fs fs' paths arrival logs E W Hc P EO.
  apply vw_program in E. cbn [snd] in E. unfold linreg_output in EO. apply bind_ok in EO as ([[ps f1] failed] & h3 & E1 & EO). cbn [fst snd] in EO.
  apply bind_ok in EO as (x & h4 & _ & EO). destruct x as [| |r]; [done|done|]. apply bind_ok in EO as (m & h5 & _ & EO). apply bind_ok in EO as (d3 & h6 & _ & EO).
  apply ret_ok in EO as [EO _]. injection EO as <- <- Efl <-. subst failed.
  exact (C94_unordered_view_main worder can _ (WSpec "" 0 false) h1 w "outdir/file" fs ps f1 h3 W P Hc E eq_refl E1).
Qed.
(** Without the directory outdir the program panics, although it ignores the error
    of ToCSVDir. *)
Lemma C96_no_directory_main : forall (worder : nat -> nat -> gset string -> list string) (can : string -> bool) (dl : dialect) (cpu : Z) (exclude : list string)
    (h : heap) (w : dframe) (fs : disk) (arrival : list string) (logs : list (list (list string))),
  wf h w -> (1 <= actual_max_cpu (d_raw w))%Z -> (forall i, perm_order (worder i)) ->
  (forall p, in_dir "outdir" p = true -> can p = false /\ fs !! p = None) ->
  linreg_output mord worder can dl cpu exclude w fs arrival logs h = Panic.
Proof.
  intros worder can dl cpu exclude h w fs arrival logs W Hc P Hno.
  destruct (dir_core worder can (WDialect (di_comma dl) false) (WSpec "" 0 false) h w "outdir/file" fs W P Hc) as (paths & Ep & H).
  destruct (C48_paths_partial_main (WSpec "" 0 false) (num_rows w) _ "outdir/file" Hc) as (paths' & Ep' & _ & H1 & _).
  rewrite Ep in Ep'. injection Ep' as <-.
  assert (Hin : forall p, p ∈ paths -> in_dir "outdir" p = true).
  { eapply (paths_in_dir _ _ _ "outdir" "file"); [done|exact Ep]. }
  assert (Hnc : ~ Forall (fun p => can p = true) paths).
  { destruct paths as [|p paths]; [simpl in H1; lia|]. intros [Hp _]%Forall_cons. destruct (Hno p) as [Hp' _]; [apply Hin; left|]. congruence. }
  unfold linreg_output. unfold bind at 1. destruct (to_csv_dir _ _ _ _ _ _ _ h) as [[[[ps f1] failed] h']|]; [|done].
  destruct H as (-> & _ & Hrest & Hfl & _ & Hf). destruct failed; [|destruct (proj1 Hfl eq_refl); done]. cbn [fst snd].
  assert (Hnone : forall p, in_dir "outdir" p = true -> f1 !! p = None).
  { intros p Hp. destruct (decide (p ∈ paths)) as [[i Hi]%elem_of_list_lookup|Hn]; [|rewrite Hrest by done; by apply Hno].
    destruct (Hf eq_refl i p Hi) as [_ H2]. rewrite H2; [by apply Hno|]. intros HF.
    destruct paths as [|p0 paths]; [done|]. destruct i; apply Forall_cons in HF as [Hp0 _]; (destruct (Hno p0) as [Hp' _]; [apply Hin; left|]; congruence). }
  assert (HG : glob_csv "outdir" f1 = []).
  { unfold glob_csv. assert (filter (fun p => in_dir "outdir" p = true) (elements (dom f1)) = []) as ->; [|done].
    destruct (filter _ _) as [|p l] eqn:El; [done|]. exfalso. assert (Hp : p ∈ filter (fun p => in_dir "outdir" p = true) (elements (dom f1))) by (rewrite El; left).
    apply elem_of_list_filter in Hp as [Hp [x Hx]%elem_of_elements%elem_of_dom]. pose proof (eq_trans (eq_sym Hx) (Hnone p Hp)) as Hy. done. }
  unfold from_csv_dir. rewrite HG. done.
Qed.
End main.

Section wit.
Local Existing Instance ex_rt.
Local Existing Instance go_crt.
Definition wo_run (w : dframe) (h : heap) : res (list string * disk * bool * dframe * heap) :=
  linreg_output map_to_list (fun _ _ => elts) (fun _ => true) plain_d 1 ["z"] w ∅ ["outdir/file0.csv"] [[["s_onehot0"; "x"; "y"; "y_pred"]]] h.
Definition wo_out : res (list string * disk * bool * dframe * heap) :=
  match wp_run with
  | Ok ((e, w), h) => wo_run w h
  | Panic => Panic
  end.
Definition wo_text : string := "s_onehot0,x,y,y_pred" +:+ lf +:+ "false,1,3.5,0" +:+ lf +:+ "false,1,3.5,0" +:+ lf.
(** The targets of the test rows are 5 and 8. *)
Lemma C96_test_rows_refuted_main : exists e w h d2 h2 fs', 
  program fbl elts ord0 map_to_list plain_d wp_text 1 ["z"] [["s"; "x"; "y"]] (fun i => i / 2) (fun _ => f64_one) (fun _ _ => 0) f_half true true "y" lw_params heap0 = Ok ((e, w), h) /\
  wf h w /\ (1 <= actual_max_cpu (d_raw w))%Z /\ t_floats (abs h w) "y" = [f64_of_Z 5; f64_of_Z 8] /\
  linreg_output map_to_list (fun _ _ => elts) (fun _ => true) plain_d 1 ["z"] w ∅ ["outdir/file0.csv"] [[["s_onehot0"; "x"; "y"; "y_pred"]]] h =
    Ok ((["outdir/file0.csv"], fs', false, d2), h2) /\
  fs' !! "outdir/file0.csv" = Some wo_text /\
  t_floats (abs h2 d2) "y" = [f64_div (f64_of_Z 7) (f64_of_Z 2); f64_div (f64_of_Z 7) (f64_of_Z 2)].
Proof.
  fold wp_run. destruct wp_run as [[[e w] h]|] eqn:E.
  2: { exfalso. apply (f_equal (fun r => match r with Ok _ => true | Panic => false end)) in E. by vm_compute in E. }
  destruct (wo_run w h) as [[[[[ps fs'] failed] d2] h2]|] eqn:EO.
  2: { exfalso. assert (H : match wo_out with Ok _ => true | Panic => false end = true) by (by vm_compute). unfold wo_out in H. rewrite E in H.  by rewrite EO in H. }
  assert (H : match wo_out with Ok (ps, fs, f, d, h2) =>
      bool_decide (ps = ["outdir/file0.csv"] /\ f = false /\ fs !! "outdir/file0.csv" = Some wo_text /\ t_floats (abs h2 d) "y" = [f64_div (f64_of_Z 7) (f64_of_Z 2); f64_div (f64_of_Z 7) (f64_of_Z 2)])
      | Panic => false end = true) by (by vm_compute).
  unfold wo_out in H. rewrite E in H.  rewrite EO in H. apply bool_decide_eq_true in H as (-> & -> & H1 & H2).
  assert (H3 : match wp_run with Ok ((e, w), h) => wf_check h w 4 && bool_decide (t_floats (abs h w) "y" = [f64_of_Z 5; f64_of_Z 8] /\ (1 <= actual_max_cpu (d_raw w))%Z) | Panic => false end = true) by (by vm_compute).
  rewrite E in H3. apply andb_prop in H3 as [H3 [H4 H5]%bool_decide_eq_true]. apply wf_check_sound in H3.
  exists e, w, h, d2, h2, fs'. exact (conj eq_refl (conj H3 (conj H5 (conj H4 (conj EO (conj H1 H2)))))).
Qed.
End wit.
