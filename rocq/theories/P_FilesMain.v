(** Several CSV files under every schedule, and jobs that do interfere: C42, C84. *)
From Verif Require Export M_Files.
From Verif Require Import P_CsvMain P_PrepMain P_PrepPool P_Exec P_Check.

(** ** Which files are read *)
Lemma regular_files_spec stat names :
  match regular_files stat names with
  | None => exists f, f ∈ names /\ stat f = None
  | Some l => (forall f, f ∈ names -> stat f <> None) /\ l = filter (fun f => stat f = Some true) names
  end.
Proof.
  induction names as [|f names IH]; cbn [regular_files]; [split; [intros f Hf; by apply elem_of_nil in Hf|done]|].
  destruct (stat f) as [b|] eqn:Ef; [|exists f; split; [by left|done]].
  destruct (regular_files stat names) as [l|]; cbn [mbind option_bind].
  - destruct IH as [IH1 ->]. split.
    + intros f' [->|Hf]%elem_of_cons; [by rewrite Ef|by apply IH1].
    + rewrite filter_cons. destruct b.
      * by rewrite decide_True.
      * rewrite decide_False by congruence. done.
  - destruct IH as (f' & Hf & E). exists f'. split; [by right|done].
Qed.
Lemma C84_pattern_paths_main (glob : option (list string)) (stat : string -> option bool) :
  (pattern_paths glob stat = PError <-> forall names, glob = Some names -> exists f, f ∈ names /\ stat f = None) /\
  forall names, glob = Some names -> (forall f, f ∈ names -> stat f <> None) ->
    let files := filter (fun f => stat f = Some true) names in
    (pattern_paths glob stat = PNothing <-> files = []) /\
    (forall p, pattern_paths glob stat = POne p <-> files = [p]) /\
    (forall ps, pattern_paths glob stat = PMany ps <-> files = ps /\ 2 <= length ps).
Proof.
  destruct glob as [names|]; cbn [pattern_paths]; [|split; [by split|done]].
  pose proof (regular_files_spec stat names) as H. destruct (regular_files stat names) as [l|].
  - destruct H as [H1 H2]. split.
    + split; [destruct l as [|? [|? ?]]; done|]. intros Hx. destruct (Hx names eq_refl) as (f & Hf & E). by destruct (H1 f Hf).
    + intros names' [= <-] _. cbn zeta. rewrite <- H2. clear H1 H2. destruct l as [|a [|b l]].
      * split; [done|]. split; [done|]. intros ps. split; [done|]. intros [<- Hp]. cbn in Hp. lia.
      * split; [done|]. split; [intros p; split; congruence|]. intros ps. split; [done|]. intros [<- Hp]. cbn in Hp. lia.
      * split; [done|]. split; [done|]. intros ps. split; [intros [= <-]; split; [done|cbn; lia]|]. by intros [<- _].
  - split; [|intros names' [= <-] Hf; destruct H as (f & Hin & E); by destruct (Hf f Hin)].
    split; [|done]. intros _ names' [= <-]. done.
Qed.

(** ** Reading them *)
Section files.
Context {crt : CsvRT} {rt : GoRT}.
Lemma file_job_ret o content p : (forall header recs, read_split o content p = Some (header, recs) -> wide header recs) ->
  file_job o content p = JRet (read_split o content p).
Proof.
  intros Hw. unfold file_job. destruct (read_split o content p) as [[header recs]|]; [|done].
  assert (forallb (fun c => match native_col o header recs c with Ok _ => true | Panic => false end) (elements (csv_names o header)) = true) as ->; [|done].
  apply forallb_forall. intros c Hc. apply elem_of_list_In, elem_of_elements, elem_of_csv_names in Hc as [Hc _].
  rewrite (cells_of_native o _ _ _ _ (cell_list_cells header recs c Hc (Hw _ _ eq_refl))). done.
Qed.
Lemma C84_files_partial_main : forall (o : rspec) (content : string -> option (list (list string))) (paths : list string)
    (max_cpu_opt ncpu : Z) (rnd : nat -> nat) (h : heap) q w m s,
  default_types o -> NoDup paths -> "" ∉ paths -> 2 <= length paths -> (1 <= ncpu)%Z ->
  (* there is a worker *)
  (let cpu := if decide (max_cpu_opt <= 0)%Z then ncpu else max_cpu_opt in
   cpu < Z.of_nat (length paths) * (Z.of_nat (length paths) + 1))%Z ->
  (* the records are as long as the header *)
  (forall p header recs, p ∈ paths -> read_split o content p = Some (header, recs) -> wide header recs) ->
  create_queue rnd paths (pattern_workers max_cpu_opt ncpu (Z.of_nat (length paths))).2 = (q, w) ->
  steps false (length paths) (file_job o content) m (pool_init q w h) s ->
  (* it ends *)
  m <= 4 * length paths + Z.to_nat w + 1 /\ p_crash s = false /\
  (~ closed (length paths) s -> exists s', step false (length paths) (file_job o content) s s') /\
  (closed (length paths) s -> p_heap s = h /\
    exists arrival, arrival ≡ₚ paths /\ (p_got s).*1 = arrival /\
    (* an error if one file has an error *)
    ((exists p, p ∈ paths /\ read_split o content p = None) -> forall logs, pattern_result o (p_got s) logs h = Ok (None, h)) /\
    (* otherwise the columns are put together in the order of arrival *)
    ((forall p, p ∈ paths -> read_split o content p <> None) ->
      forall logs tabs, 
      Forall2 (fun p (x : list (list string) * gmap key (list val)) => exists header recs, read_split o content p = Some (header, recs) /\
        NoDup (concat x.1) /\ (forall c, c ∈ concat x.1 <-> c ∈ header /\ c ∉ rs_exclude o) /\ file_table o header recs x.2)
        arrival (zip logs tabs) -> length logs = length tabs ->
      exists r h', pattern_result o (p_got s) logs h = Ok (Some r, h') /\ preserved h h' /\
        forall k vs, raw_cols h' r !! k = Some vs <->
          (exists tab, tab ∈ tabs /\ is_Some (tab !! k)) /\ vs = concat ((fun tab => default [] (tab !! k)) <$> tabs))).
Proof.
  intros o content paths mx ncpu rnd h q w m s Hd Hnd He Hl Hn Hcpu Hw Eq Hs.
  set (mw := (pattern_workers mx ncpu (Z.of_nat (length paths))).2) in *.
  assert (Hmw : (1 <= mw)%Z).
  { pose proof (C43_pattern_workers_partial_main mx ncpu (Z.of_nat (length paths)) Hn ltac:(lia)) as HP. unfold mw.
    destruct (pattern_workers mx ncpu (Z.of_nat (length paths))) as [pf wk]. cbn zeta in *. apply (proj1 (proj2 HP)). exact Hcpu. }
  assert (Hj : forall p, p ∈ paths -> file_job o content p = JRet (read_split o content p)).
  { intros p Hp. apply file_job_ret. intros header recs. by apply Hw. }
  assert (Hseq : seq_all ((fun k => (k, file_job o content k)) <$> paths) h = Some ((fun k => (k, read_split o content k)) <$> paths, h)).
  { clear -Hj. induction paths as [|c keys IH]; [done|]. rewrite !fmap_cons. simpl. rewrite (Hj c) by (by left). simpl.
    rewrite IH; [done|]. intros c' Hc'. apply Hj. by right. }
  destruct (pool_all _ (file_job o content) (fun _ _ => False) (fun _ _ => False) paths mw h ((fun k => (k, read_split o content k)) <$> paths) h 0 Hnd He Hmw) with false rnd q w m s as (H1 & H2 & H3 & H4); [..|exact Hseq|exact Eq|exact Hs|].
  { intros k Hk. rewrite Hj by done. constructor. } { done. } { intros k Hk. rewrite Hj by done. constructor. }
  split; [lia|]. split; [done|]. split; [done|]. intros Hcl. destruct (H3 Hcl) as [Hh Hg]. split; [done|].
  exists (p_got s).*1. split; [|split; [done|]].
  { rewrite Hg, <- list_fmap_compose. rewrite (list_fmap_ext _ id); [by rewrite list_fmap_id|done]. }
  assert (Hgot : forall p r, (p, r) ∈ p_got s <-> p ∈ paths /\ r = read_split o content p).
  { intros p r. rewrite Hg, elem_of_list_fmap. split; [intros (? & [= -> ->] & ?); done|]. intros [? ->]. by exists p. }
  split.
  - intros (p & Hp & En) logs. unfold pattern_result. assert (mapM snd (p_got s) = None) as ->; [|done].
    apply eq_None_not_Some. intros [l Hm%mapM_Some]. assert (Hin : (p, None) ∈ p_got s) by (apply Hgot; by rewrite En).
    apply elem_of_list_lookup in Hin as [i Hi]. eapply Forall2_lookup_l in Hm as (y & _ & Hy); [|exact Hi]. done.
  - intros Hok logs tabs F Hlt. 
    assert (HF : forall got, (forall p r, (p, r) ∈ got -> p ∈ paths /\ r = read_split o content p) -> forall logs tabs,
      Forall2 (fun p (x : list (list string) * gmap key (list val)) => exists header recs, read_split o content p = Some (header, recs) /\
        NoDup (concat x.1) /\ (forall c, c ∈ concat x.1 <-> c ∈ header /\ c ∉ rs_exclude o) /\ file_table o header recs x.2)
        got.*1 (zip logs tabs) -> length logs = length tabs ->
      exists files, mapM snd got = Some files /\ Forall2 (fun f tab => readable o f /\ file_table o f.1.1 f.1.2 tab) (zip files logs) tabs).
    { clear -Hw. induction got as [|[p r] got IH]; intros Hin logs tabs F Hl.
      - exists []. apply Forall2_nil_inv_l in F. destruct logs as [|? ?], tabs as [|? ?]; try done. split; [done|]. constructor.
      - rewrite fmap_cons in F. destruct logs as [|lg logs], tabs as [|tab tabs]; try done; [by apply Forall2_cons_nil_inv in F..|].
        cbn [zip zip_with] in F. apply Forall2_cons in F as [(header & recs & Er & Hnd & Hc & Ht) F].
        destruct (Hin p r) as [Hp ->]; [by left|]. cbn [fst] in Er.
        destruct (IH (fun p r H => Hin p r ltac:(by right)) logs tabs F ltac:(cbn in Hl; lia)) as (files & Ef & F2).
        exists ((header, recs) :: files). split; [cbn; rewrite Er; cbn; by rewrite Ef|]. cbn [zip zip_with]. constructor; [|done].
        cbn. split; [|done]. split; [by apply (Hw p)|]. done. }
    destruct (HF (p_got s) (fun p r H => proj1 (Hgot p r) H) logs tabs F Hlt) as (files & Ef & F2).
    unfold pattern_result. rewrite Ef.
    destruct (C71_pattern_partial_main o (zip files logs) tabs h Hd F2) as (r & h' & E & X & Hc & _).
    exists r, h'. split; [by rewrite (bind_eq _ _ _ _ _ E)|]. done.
Qed.
End files.

(** ** Jobs that interfere *)
Section wit.
Existing Instance ex_rt.
(** Two columns sharing their storage: SetFloats with the same slice. *)
Definition c42_shared : dframe * heap :=
  run_df (let* s := lit_slice [VFloat (fz 0)] in let* r := new_raw in let* r := b_set KFloat r "a" s in let* r := b_set KFloat r "b" s in to_dataframe r) heap0.
Definition c42_sc : scaler f64_arith := Scaler {["a" := fz 1; "b" := fz 1]} ∅.
Definition c42_prog : string -> job unit := scale_job c42_sc (mp c42_shared.2 (r_maps (d_raw c42_shared.1))) c42_shared.1.
Definition c42_start : pool unit := pool_init ["a"; "b"] 2 c42_shared.2.
(** One worker after the other. *)
Definition c42_turns : list (option nat) := [Some 0; Some 0; Some 0; Some 0; Some 1; Some 1; Some 1; Some 1; Some 0; Some 1; Some 0; Some 1; None; None].
(** Both read before they write. *)
Definition c42_mixed : list (option nat) := [Some 0; Some 1; Some 0; Some 1; Some 0; Some 1; Some 0; Some 1; Some 0; Some 1; Some 0; Some 1; None; None].
Definition c42_end (l : list (option nat)) : pool unit := default c42_start (exec true 2 c42_prog l c42_start).
Lemma C42_shared_storage_refuted_main : exists (h : heap) (d : dframe) (sc : scaler f64_arith) (m1 m2 : nat) (s1 s2 : pool unit),
  wf h d /\ show KFloat "a" h d = Some [VFloat (fz 0)] /\ dom (sc_shift sc) = {["a"; "b"]} /\
  let prog := scale_job sc (mp h (r_maps (d_raw d))) d in
  create_queue id ["a"; "b"] 3 = (["a"; "b"], 2%Z) /\
  steps true 2 prog m1 (pool_init ["a"; "b"] 2 h) s1 /\ closed 2 s1 /\ p_crash s1 = false /\ show KFloat "a" (p_heap s1) d = Some [VFloat (fz 2)] /\
  steps true 2 prog m2 (pool_init ["a"; "b"] 2 h) s2 /\ closed 2 s2 /\ p_crash s2 = false /\ show KFloat "a" (p_heap s2) d = Some [VFloat (fz 1)].
Proof.
  exists c42_shared.2, c42_shared.1, c42_sc, (length c42_turns), (length c42_mixed), (c42_end c42_turns), (c42_end c42_mixed).
  split; [apply (wf_check_sound _ _ 1); by vm_compute|]. split; [by vm_compute|].
  split; [apply (bool_decide_unpack _); by vm_compute|]. cbn zeta. fold c42_prog c42_start. split; [by vm_compute|].
  assert (H : forall l, exec true 2 c42_prog l c42_start <> None -> steps true 2 c42_prog (length l) c42_start (c42_end l)).
  { intros l Hl. apply exec_steps. unfold c42_end. by destruct (exec true 2 c42_prog l c42_start). }
  split; [apply H; by vm_compute|]. split; [unfold closed; vm_compute; lia|]. split; [by vm_compute|]. split; [by vm_compute|].
  split; [apply H; by vm_compute|]. split; [unfold closed; vm_compute; lia|]. split; by vm_compute.
Qed.
End wit.
Section wit2.
Existing Instances ex_crt ex_rt.
Definition c84_content (p : string) : option (list (list string)) :=
  if decide (p = "x.csv") then Some [["a"; "b"]; ["7"; "u"]] else if decide (p = "y.csv") then Some [["b"; "a"]; ["v"; "8"]; ["w"; "9"]] else None.
Definition c84_start (paths : list string) := pool_init (R := option (list string * list (list string))) paths 2 heap0.
Definition c84_end (paths : list string) : pool (option (list string * list (list string))) :=
  default (c84_start paths) (exec false 2 (file_job ro0 c84_content) [Some 1; Some 0; Some 1; Some 0; Some 0; Some 1; None; None] (c84_start paths)).
Lemma C84_check_main :
  pattern_paths (Some ["x.csv"; "sub"; "y.csv"]) (fun f => Some (negb (bool_decide (f = "sub")))) = PMany ["x.csv"; "y.csv"] /\
  (forall p header recs, read_split ro0 c84_content p = Some (header, recs) -> wide header recs) /\
  create_queue id ["x.csv"; "y.csv"] (pattern_workers 0 4 2).2 = (["x.csv"; "y.csv"], 1%Z) /\
  create_queue (fun _ => 0) ["x.csv"; "y.csv"] (pattern_workers 3 4 2).2 = (["y.csv"; "x.csv"], 2%Z) /\
  steps false 2 (file_job ro0 c84_content) 8 (c84_start ["y.csv"; "x.csv"]) (c84_end ["y.csv"; "x.csv"]) /\
  closed 2 (c84_end ["y.csv"; "x.csv"]) /\ (p_got (c84_end ["y.csv"; "x.csv"])).*1 = ["x.csv"; "y.csv"] /\
  match pattern_result ro0 (p_got (c84_end ["y.csv"; "x.csv"])) [[["b"; "a"]]; [["a"]; ["b"]]] heap0 with
  | Ok (Some r, h) => raw_cols h r !! (KInt, "a") = Some [VInt 7; VInt 8; VInt 9] /\
      raw_cols h r !! (KObj, "b") = Some (VObj ∘ OStr <$> ["u"; "v"; "w"])
  | _ => False
  end /\
  (* one of them does not exist *)
  closed 2 (c84_end ["x.csv"; "z.csv"]) /\ (p_got (c84_end ["x.csv"; "z.csv"])).*2 = [None; Some (["a"; "b"], [["7"; "u"]])] /\
  pattern_result ro0 (p_got (c84_end ["x.csv"; "z.csv"])) [] heap0 = Ok (None, heap0).
Proof.
  split; [by vm_compute|]. split.
  { intros p header recs. unfold read_split, c84_content. destruct (decide _); [intros [= <- <-]; unfold wide; repeat constructor|].
    destruct (decide _); [intros [= <- <-]; unfold wide; repeat constructor|done]. }
  split; [by vm_compute|]. split; [by vm_compute|].
  split; [apply (exec_steps false 2 _ [Some 1; Some 0; Some 1; Some 0; Some 0; Some 1; None; None]); by vm_compute|].
  split; [unfold closed; vm_compute; lia|]. split; [by vm_compute|]. split; [by vm_compute|].
  split; [unfold closed; vm_compute; lia|]. split; by vm_compute.
Qed.
End wit2.
