(** Proofs of the theorems about utils, headers, the CPU limit and short names. *)
From Verif Require Export P_Cpu P_Utils.

(** ** C35 *)
Lemma C35_header_algebra_main : forall (h : heap) (x : header) (others : list header) (cols : list string),
  valid_str h x -> Forall (valid_str h) others ->
  (exists y h', hd_columns cols h = Ok (y, h') /\ ostr h' y = list_to_set cols) /\
  (exists y h', hd_and x others h = Ok (y, h') /\ ostr h' y = ostr h x ∪ ⋃ (ostr h <$> others)) /\
  (exists h', hd_except_header x others h = Ok (x, h') /\ ostr h' x = ostr h x ∖ ⋃ (ostr h <$> others)) /\
  (exists h', hd_except x cols h = Ok (x, h') /\ ostr h' x = ostr h x ∖ list_to_set cols) /\
  (exists y h', hd_copy x h = Ok (y, h') /\ ostr h' y = ostr h x /\ ostr h' x = ostr h x /\ (y = x -> x = None)) /\
  hd_num x h = Ok (size (ostr h x), h).
Proof.
  intros h x others cols V Vs. split; [|split; [|split; [|split; [|split]]]].
  - destruct (new_hd h (list_to_set cols)) as (y & h' & E & (_ & S & _) & _). eauto.
  - destruct x as [l|].
    + destruct (hd_and_some l others h) as (h' & E & _ & S); [by apply V|]. eauto.
    + destruct (hd_and_none others h Vs) as (y & h' & E & _ & S & _). exists y, h'. split; [done|].
      rewrite S. simpl. set_solver.
  - destruct (hd_except_header_spec x others h V) as (h' & E & _ & S). eauto.
  - destruct (str_remove_upd x (list_to_set cols) h V) as (h' & E & _ & S). exists h'. split; [|done].
    unfold hd_except. by rewrite (bind_eq _ _ _ _ _ E).
  - destruct (hd_copy_spec h x V) as (y & h' & E & X & S & Y & _). exists y, h'. do 2 (split; [done|]).
    split; [by apply ext_ostr|]. intros ->. destruct x as [l|]; [|done]. destruct (Y l eq_refl).
    specialize (V l eq_refl). lia.
  - done.
Qed.
Lemma C35_name_list_main : forall (h : heap) (x : header) (order : gset string -> list string) (l : list string),
  (forall s, order s ≡ₚ elements s) -> hd_name_list order x h = Ok (l, h) ->
  NoDup l /\ length l = size (ostr h x) /\ forall c, c ∈ l <-> c ∈ ostr h x.
Proof.
  intros h x order l Ho E. unfold hd_name_list in E. apply bind_ok in E as (s & h1 & E1 & E2).
  injection E1 as <- <-. apply ret_ok in E2 as [<- _]. split; [rewrite (Ho _); apply NoDup_elements|].
  split; [by rewrite (Ho _)|]. intros c. rewrite (Ho _). apply elem_of_elements.
Qed.
(** The headers of a dataframe name its columns. *)
Lemma C35_dataframe_headers_main : forall (h : heap) (d : dframe), wf h d ->
  (forall k, exists x h', kind_header k (d_raw d) h = Ok (x, h') /\ preserved h h' /\
     forall c, c ∈ ostr h' x <-> is_Some (t_cols (abs h d) !! (k, c))) /\
  (exists x h', string_header (d_raw d) h = Ok (x, h') /\ preserved h h' /\ ostr h' x = t_strs (abs h d)) /\
  (exists x h', all_header (d_raw d) h = Ok (x, h') /\ preserved h h' /\
     forall c, c ∈ ostr h' x <-> exists k, is_Some (t_cols (abs h d) !! (k, c))).
Proof.
  intros h d [n W]. split; [|split].
  - intros k. destruct (kind_header_spec h k (d_raw d)) as (x & h' & E & X & S & _). exists x, h'.
    split; [done|]. split; [by apply ext_preserved|]. intros c. rewrite S, elem_of_names_of, abs_cols_lookup, fmap_is_Some. done.
  - destruct (hd_copy_spec h (r_strs (d_raw d)) (wf_str _ _ _ W)) as (x & h' & E & X & S & _). exists x, h'.
    split; [done|]. split; [by apply ext_preserved|]. done.
  - destruct (all_header_spec h (d_raw d) (wf_map _ _ _ W)) as (x & h' & E & X & S & _). exists x, h'.
    split; [done|]. split; [by apply ext_preserved|]. intros c. rewrite S, elem_of_names.
    split; intros [k Hk]; exists k; revert Hk; by rewrite abs_cols_lookup, fmap_is_Some.
Qed.
(** No sequence of header operations, of any length, on headers obtained from
    dataframes or created with Columns changes any dataframe. *)
Lemma C35_headers_are_detached_main : forall (h : heap) (os : list hop),
  Forall (fun o => forall d, hop_df o = Some d -> wf h d) os ->
  exists hs h', run_hops [] os h = Ok (hs, h') /\ preserved h h'.
Proof.
  intros h os F. destruct (run_hops_spec h os h [] (ext_refl h) ltac:(constructor) F) as (hs & h' & E & X).
  exists hs, h'. split; [done|by apply ext_preserved].
Qed.

(** ** C62 *)
Lemma C62_split_string_slice_main : forall (s : list string) (n : Z),
  match split_string_slice s n with
  | Ok gs => concat gs = (if decide (n = 0)%Z then [] else s) /\ (0 <= n)%Z \/ s = [] /\ gs = []
  | Panic => s <> [] /\ (n < 0)%Z
  end /\
  (s <> [] -> (0 < n)%Z -> exists gs g, split_string_slice s n = Ok gs /\ Z.of_nat (length gs) = Z.min n (Z.of_nat (length s)) /\
     concat gs = s /\ forall j grp, gs !! j = Some grp -> length grp = g `min` (length s - j * g)).
Proof.
  assert (Main : forall (s : list string) (n : Z), s <> [] -> (0 < n)%Z -> exists gs g, split_string_slice s n = Ok gs /\ Z.of_nat (length gs) = Z.min n (Z.of_nat (length s)) /\
     concat gs = s /\ forall j grp, gs !! j = Some grp -> length grp = g `min` (length s - j * g)).
  { intros s n Hs Hn. destruct (split_string_slice_spec s n Hs Hn) as (g & Hg & Hl & ->).
    eexists _, g. split; [done|]. split; [rewrite fmap_length, seq_length; lia|]. split; [by apply concat_groups|].
    intros j grp Hj. apply list_lookup_fmap_Some in Hj as (j' & Hj & ->). apply lookup_seq in Hj as [-> _].
    by rewrite take_length, drop_length. }
  intros s n. split; [|apply Main].
  destruct (decide (s = [])) as [->|Hs]; [by right|]. destruct (decide (n = 0)%Z) as [->|Hn].
  { unfold split_string_slice. rewrite decide_True by tauto. by left. }
  destruct (decide (n < 0)%Z) as [Hneg|Hpos].
  { unfold split_string_slice. rewrite decide_False by tauto. unfold create_group_indexer. by rewrite decide_True. }
  destruct (Main s n Hs ltac:(lia)) as (gs & g & -> & _ & Hc & _). left. split; [done|lia].
Qed.
(** Some of the groups can be empty though there are more elements than groups. *)
Lemma C62_empty_groups_refuted_main : exists (s : list string) (n : Z) gs,
  (0 < n <= Z.of_nat (length s))%Z /\ split_string_slice s n = Ok gs /\ [] ∈ gs.
Proof.
  exists ["a"; "b"; "c"; "d"; "e"], 4%Z, [["a"; "b"]; ["c"; "d"]; ["e"]; []].
  split; [simpl; lia|]. split; [by vm_compute|]. set_solver.
Qed.
(** CreateGroupIndexer divides by zero without elements or groups. *)
Lemma C62_group_indexer_main : forall (n g : Z), (0 <= n)%Z ->
  create_group_indexer n g = Panic <-> (g <= 0 \/ n = 0)%Z.
Proof.
  intros n g Hn. unfold create_group_indexer. repeat case_decide; split; try done; lia.
Qed.

(** ** C63 *)
Lemma C63_make_range_main : forall (from to step : Z),
  match make_range from to step with
  | Ok l =>
      (0 < step)%Z /\ (from <= to)%Z /\ (exists m, to = from + Z.of_nat m * step /\
         l = (fun i => (from + Z.of_nat i * step)%Z) <$> seq 0 m)%Z \/
      (0 < step)%Z /\ (to <= from)%Z /\ (from - to < step)%Z /\ l = [] \/
      (step < 0)%Z /\ (to <= from)%Z /\ l = replicate (Z.to_nat ((from - to) / - step)) 0%Z
  | Panic =>
      step = 0%Z \/ ((0 < step)%Z /\ (from < to)%Z /\ ~ (step | to - from)%Z) \/
      ((0 < step)%Z /\ (step <= from - to)%Z) \/ ((step < 0)%Z /\ (from < to)%Z)
  end.
Proof.
  intros from to step. unfold make_range. destruct (decide (step = 0%Z)) as [?|Hs]; [by left|]. cbv zeta.
  set (q := Z.quot (to - from) step).
  pose proof (Z.quot_rem' (to - from) step) as Hqr. fold q in Hqr.
  destruct (decide (0 < step)%Z) as [Hp|Hp].
  - destruct (decide (from < to)%Z) as [Hlt|Hge].
    + pose proof (Z.rem_bound_pos (to - from) step ltac:(lia) ltac:(lia)) as Hr.
      assert (0 <= q)%Z by nia. rewrite decide_False by lia.
      destruct (decide (Z.rem (to - from) step = 0)%Z) as [H0|H0].
      * rewrite (mr_loop_spec step (Z.to_nat q) from to) by nia. left. split; [done|]. split; [lia|].
        exists (Z.to_nat q). split; [nia|done].
      * rewrite (mr_loop_panic step (Z.to_nat q) from to) by nia. right. left. split; [done|]. split; [done|].
        intros [k Hk]. apply H0. rewrite Hk. apply Z.rem_mul. lia.
    + pose proof (Z.rem_bound_pos (- (to - from)) step ltac:(lia) ltac:(lia)) as Hr. rewrite Z.rem_opp_l in Hr by lia.
      destruct (decide (q < 0)%Z) as [Hq|Hq].
      * right. right. left. split; [done|]. nia.
      * assert (q = 0)%Z by nia. replace (Z.to_nat q) with 0 by lia. cbn [mr_loop]. rewrite decide_False by lia.
        right. left. split; [done|]. split; [lia|]. split; [nia|done].
  - assert (Hn : (step < 0)%Z) by lia. destruct (decide (from < to)%Z) as [Hlt|Hge].
    + pose proof (Z.rem_bound_pos (to - from) (- step) ltac:(lia) ltac:(lia)) as Hr. rewrite Z.rem_opp_r in Hr by lia.
      destruct (decide (q < 0)%Z) as [Hq|Hq]; [by do 3 right|].
      assert (q = 0)%Z by nia. replace (Z.to_nat q) with 0 by lia. cbn [mr_loop]. rewrite decide_True by lia.
      by do 3 right.
    + assert (Hq : q = ((from - to) / - step)%Z).
      { unfold q. rewrite <- Z.quot_div_nonneg by lia. rewrite <- Z.quot_opp_opp by lia. f_equal. lia. }
      assert (0 <= q)%Z by (rewrite Hq; apply Z.div_pos; lia).
      rewrite decide_False by lia. rewrite <- Hq.
      assert (Hl : mr_loop (Z.to_nat q) from to step = Ok (replicate (Z.to_nat q) 0%Z)).
      { destruct (Z.to_nat q); cbn [mr_loop]; rewrite decide_False by lia; done. }
      rewrite Hl. right. right. split; [done|]. split; [lia|done].
Qed.
(** The documented use, a half open range. *)
Lemma C63_make_range_partial_main : forall (from step : Z) (m : nat), (0 < step)%Z ->
  make_range from (from + Z.of_nat m * step) step = Ok ((fun i => (from + Z.of_nat i * step)%Z) <$> seq 0 m).
Proof.
  intros from step m Hs. unfold make_range. rewrite decide_False by lia. cbv zeta.
  replace (from + Z.of_nat m * step - from)%Z with (Z.of_nat m * step)%Z by lia.
  rewrite Z.quot_mul by lia. rewrite decide_False by lia. rewrite Nat2Z.id. by apply mr_loop_spec.
Qed.
(** It panics when the step does not divide the range, and yields zeros when
    counting down. *)
Lemma C63_make_range_refuted_main :
  make_range 0 5 2 = Panic /\ make_range 3 0 (-1) = Ok [0; 0; 0]%Z.
Proof. split; by vm_compute. Qed.

(** ** C64 *)
Lemma C64_set_max_cpu_main : forall (rt : GoRT) (r : raw) (n : Z),
  (1 <= actual_max_cpu (set_max_cpu r n) <= rt_ncpu)%Z /\
  ((1 <= n <= rt_ncpu)%Z -> actual_max_cpu (set_max_cpu r n) = n).
Proof.
  intros rt r n. pose proof rt_ncpu_ok. unfold actual_max_cpu. simpl. unfold max_cpu. case_decide; lia.
Qed.
Lemma C64_history_partial_main : forall (rt : GoRT) (os : list op) (h : heap) (ds : list dframe) (h' : heap),
  (* EmptyDataFrame is given a usable number of CPUs *)
  Forall (fun o => forall n cpu, o = OEmpty n cpu -> (1 <= cpu <= rt_ncpu)%Z) os ->
  run_ops [] os h = Ok (ds, h') -> Forall (fun d => (1 <= actual_max_cpu (d_raw d) <= rt_ncpu)%Z) ds.
Proof.
  intros rt os h ds h' F E. eapply (run_ops_cpu os []); [constructor| |exact E].
  eapply Forall_impl; [exact F|]. intros o H. destruct o; simpl; try done. by apply (H n).
Qed.
(** Views and copies keep the limit of the dataframe they come from. *)
Lemma C64_inherited_main : forall (rt : GoRT) (ds : list dframe) (o : op) (i : nat) (d : dframe) (h h' : heap) (ds' : list dframe) (v : dframe),
  op_source o = Some i -> ds !! i = Some d -> step ds o h = Ok (ds', h') -> v ∈ ds' ->
  v ∈ ds \/ actual_max_cpu (d_raw v) = actual_max_cpu (d_raw d).
Proof.
  intros rt ds o i d h h' ds' v Ho Hd E Hv. pose proof (step_cpu ds o h ds' h' E) as F.
  unfold cpu_step in F. rewrite Forall_forall in F. destruct (F v Hv) as [?|Hc]; [by left|]. right.
  unfold is_cpu, df_cpu in Hc. rewrite Hc. destruct o; cbn [op_cpu op_source] in *; try discriminate Ho; injection Ho as ->; by rewrite Hd.
Qed.
(** EmptyDataFrame(n, 0): no CPU at all. *)
Lemma C64_empty_dataframe_refuted_main : exists (rt : GoRT) (d : dframe) (h h' : heap),
  empty_df 3 0 h = Ok (d, h') /\ actual_max_cpu (d_raw d) = 0%Z.
Proof.
  exists ex_rt, (run_df (empty_df 3 0) heap0).1, heap0, (run_df (empty_df 3 0) heap0).2. by vm_compute.
Qed.

(** ** C65 *)
(** The columns are visited in the order [order], the shorthands in the order
    [ord]. *)
Lemma C65_short_names_main : forall (minLength : Z) (order : list string) (ord : gmap string string -> list (string * string)),
  NoDup order -> (forall m, ord m ≡ₚ map_to_list m) ->
  let mn := if decide (minLength <= 0)%Z then 3 else Z.to_nat minLength in
  let res := good_short_names minLength order ord in
  (forall c s, res !! c = Some s -> c ∈ order /\ String.prefix s c = true /\ mn <= String.length s) /\
  (forall c1 c2 s, res !! c1 = Some s -> res !! c2 = Some s -> c1 = c2) /\
  (* as short as possible: every shorter prefix is taken by another column *)
  (forall c s p, res !! c = Some s -> String.prefix p c = true -> mn <= String.length p < String.length s ->
     exists c', c' <> c /\ res !! c' = Some p) /\
  (* a column without shorthand is too short or all its prefixes are taken *)
  (forall c p, c ∈ order -> res !! c = None -> String.prefix p c = true -> mn <= String.length p ->
     exists c', c' <> c /\ res !! c' = Some p).
Proof.
  intros minLength order ord Hnd Ho mn res. unfold res, good_short_names. fold mn.
  pose proof (fun c s => good_short_lookup mn order ord c s Hnd Ho) as L.
  destruct (short_inv_ok mn order Hnd) as [P U Mn A].
  split; [|split; [|split]].
  - intros c s Hs. apply P. by apply L.
  - intros c1 c2 s H1 H2. apply L in H1, H2. congruence.
  - intros c s p Hs Hp Hl. apply L in Hs. destruct (Mn s c (String.length p) Hs Hl) as [c' Hc'].
    rewrite <- (prefix_substring p c Hp) in Hc'. exists c'. split; [|by apply L].
    intros ->. rewrite (U s p c Hs Hc') in Hl. lia.
  - intros c p Hc Hn Hp Hl. destruct (A c Hc) with (n := String.length p) as [c' Hc'].
    + intros s Hs. apply L in Hs. congruence.
    + split; [done|]. by apply prefix_len.
    + rewrite <- (prefix_substring p c Hp) in Hc'. exists c'. split; [|by apply L].
      intros ->. apply L in Hc'. congruence.
Qed.
(** PrintRecords shows a column without shorthand under its full name, which can
    be the shorthand of another column. *)
Lemma C65_display_ambiguous_refuted_main : exists (order : list string) (c1 c2 : string),
  NoDup order /\ c1 ∈ order /\ c2 ∈ order /\ c1 <> c2 /\
  let res := good_short_names 3 order map_to_list in
  shown_name res c1 = shown_name res c2.
Proof.
  exists ["abcd"; "abc"], "abcd", "abc". split; [by apply (bool_decide_unpack _)|].
  split; [set_solver|]. split; [set_solver|]. split; [done|]. by vm_compute.
Qed.

(** ** C68 *)
Lemma C68_index_of_string_main : forall (e : string) (l : list string),
  index_of_string e l = (-1)%Z /\ e ∉ l \/
  exists i, index_of_string e l = Z.of_nat i /\ l !! i = Some e /\ forall j, j < i -> l !! j <> Some e.
Proof.
  intros e l. destruct (index_of_string_from_spec e l 0) as [[? ?]|(i & H & ? & ?)]; [by left|].
  right. exists i. split; [|done]. unfold index_of_string. rewrite H. lia.
Qed.
