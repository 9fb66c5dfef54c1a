(** Proofs of the property theorems about hashing, reading, concatenating and
    building. *)
From Verif Require Export P_Concat3 P_Builder P_WriteMain P_Check P_Priv.

(** Nothing done to [v] is seen by a dataframe that existed in [h], and no
    write to such a dataframe is seen by [v]. *)
Definition independent {rt : GoRT} (h h' : heap) (v : dframe) : Prop :=
  (forall k d0 k0, wf h d0 -> cells_apart h' v k d0 k0) /\
  (forall ws h2, writes_typed ws -> do_writes v ws h' = Ok (tt, h2) ->
     forall d0, wf h d0 -> wf h2 d0 /\ abs h2 d0 = abs h d0) /\
  (forall d0 ws h2, wf h d0 -> writes_typed ws -> do_writes d0 ws h' = Ok (tt, h2) ->
     wf h2 v /\ abs h2 v = abs h' v) /\
  (forall os h2 v2, sruns h' v os h2 v2 ->
     wf h2 v2 /\ forall d0, wf h d0 -> wf h2 d0 /\ abs h2 d0 = abs h d0).

Lemma independent_new {rt : GoRT} h h' v : ext h h' -> wf h' v -> (forall k, young_col h h' v k) ->
  length (h_map h) <= r_maps (d_raw v) -> independent h h' v.
Proof.
  intros X W2 Hy M.
  assert (Hap : forall k d0 k0, wf h d0 -> cells_apart h' v k d0 k0).
  { intros k d0 k0 W0. apply (cells_apart_old h); auto. }
  split; [done|]. split; [|split].
  - intros ws h2 Ht E2 d0 W0. assert (W0' : wf h' d0) by (by eapply ext_wf).
    destruct (do_writes_spec v ws h' h2 W2 Ht E2) as [Hw Hc].
    split; [by eapply wrt_wf|]. rewrite <- (ext_abs _ _ d0 X W0).
    apply wrt_abs; [done|done|]. intros k0 j0 a Ha. apply Hc. intros k j Hk Hc2.
    eapply (Hap k d0 k0 W0); eauto.
  - intros d0 ws h2 W0 Ht E2. assert (W0' : wf h' d0) by (by eapply ext_wf).
    destruct (do_writes_spec d0 ws h' h2 W0' Ht E2) as [Hw Hc].
    split; [by eapply wrt_wf|].
    apply wrt_abs; [done|done|]. intros k0 j0 a Ha. apply Hc. intros k j Hk Hc2.
    eapply (Hap k0 d0 k W0); eauto.
  - intros os h2 v2 R.
    destruct (sruns_spec h h' v os h2 v2 R W2 X) as [W3 X3]; [right; lia|].
    split; [done|]. intros d0 W0. split; [by eapply ext_wf|by apply ext_abs].
Qed.

(** ** witnesses *)
Definition run_odf (m : M (option dframe)) (h : heap) : dframe * heap :=
  match m h with Ok (Some d, h) => (d, h) | _ => (dummy, heap0) end.

Section wit.
Existing Instance ex_rt.
(** A dataframe with the given columns. *)
Definition mk_df (h : heap) (cs : list (kind * string * list val)) (strs : list string) : dframe * heap :=
  run_df (let* r := new_raw in
          forM cs (fun x => let* _ := b_add x.1.1 r x.1.2 x.2 in ret tt) ;;*
          let* r := foldl (fun m c => let* r := m in b_mark r c) (ret r) strs in
          to_dataframe r) h.
(** Only a string column. *)
Definition c24_d := (mk_df heap0 [(KObj, "s", [VObj (OStr "x"); VObj ONil])] ["s"]).1.
Definition c24_h := (mk_df heap0 [(KObj, "s", [VObj (OStr "x"); VObj ONil])] ["s"]).2.
Definition c24_v := (run_df (hash_strings_view c24_d ["s"]) c24_h).1.
Definition c24_h' := (run_df (hash_strings_view c24_d ["s"]) c24_h).2.
(** ints p (2 rows); ints q (3 rows); strings t (2 rows). *)
Definition c30_p := (mk_df heap0 [(KInt, "p", [VInt 1; VInt 2])] []).1.
Definition c30_hp := (mk_df heap0 [(KInt, "p", [VInt 1; VInt 2])] []).2.
Definition c30_q := (mk_df c30_hp [(KInt, "q", [VInt 3; VInt 4; VInt 5])] []).1.
Definition c30_hq := (mk_df c30_hp [(KInt, "q", [VInt 3; VInt 4; VInt 5])] []).2.
Definition c30_t := (mk_df c30_hq [(KObj, "t", [VObj (OStr "x"); VObj (OStr "y")])] ["t"]).1.
Definition c30_ht := (mk_df c30_hq [(KObj, "t", [VObj (OStr "x"); VObj (OStr "y")])] ["t"]).2.
Definition c30_pq := (mk_df c30_ht [(KInt, "p", [VInt 6]); (KInt, "q", [VInt 7])] []).1.
Definition c30_h := (mk_df c30_ht [(KInt, "p", [VInt 6]); (KInt, "q", [VInt 7])] []).2.
Definition c30_v := (run_odf (row_concat [c30_p; c30_pq]) c30_h).1.
Definition c30_h' := (run_odf (row_concat [c30_p; c30_pq]) c30_h).2.
(** different numbers of rows *)
Definition c31_v := (run_odf (column_concat_view [c30_q; c30_p]) c30_h).1.
Definition c31_h' := (run_odf (column_concat_view [c30_q; c30_p]) c30_h).2.
(** no string mark on the first dataframe *)
Definition c31_v2 := (run_odf (column_concat_view [c30_p; c30_t]) c30_h).1.
Definition c31_h2 := (run_odf (column_concat_view [c30_p; c30_t]) c30_h).2.
(** eight rows; the index lists [0;7] and [1;0] have the same hash *)
Definition c31_a := (mk_df heap0 [(KInt, "a", VInt <$> [0;1;2;3;4;5;6;7]%Z)] []).1.
Definition c31_ah := (mk_df heap0 [(KInt, "a", VInt <$> [0;1;2;3;4;5;6;7]%Z)] []).2.
Definition c31_b := (mk_df c31_ah [(KInt, "b", VInt <$> [0;1;2;3;4;5;6;7]%Z)] []).1.
Definition c31_bh := (mk_df c31_ah [(KInt, "b", VInt <$> [0;1;2;3;4;5;6;7]%Z)] []).2.
Definition c31_av := (run_df (index_view c31_a [0; 7]%Z) c31_bh).1.
Definition c31_avh := (run_df (index_view c31_a [0; 7]%Z) c31_bh).2.
Definition c31_bv := (run_df (index_view c31_b [1; 0]%Z) c31_avh).1.
Definition c31_bvh := (run_df (index_view c31_b [1; 0]%Z) c31_avh).2.
Definition c31_v3 := (run_odf (column_concat_view [c31_av; c31_bv]) c31_bvh).1.
Definition c31_h3 := (run_odf (column_concat_view [c31_av; c31_bv]) c31_bvh).2.
Definition c33_v := (run_odf (column_smart_concat [c31_av; c31_bv]) c31_bvh).1.
Definition c33_h := (run_odf (column_smart_concat [c31_av; c31_bv]) c31_bvh).2.
(** rows 0 and 1 of eight, next to a dataframe of two rows *)
Definition c31_w := (run_df (slice_view c31_a 0 2) c31_bh).1.
Definition c31_wh := (run_df (slice_view c31_a 0 2) c31_bh).2.
Definition c34_r := (run_raw (merge_raw_rows [d_raw ex_d; d_raw ex_d]) ex_h).1.
Definition c34_h := (run_raw (merge_raw_rows [d_raw ex_d; d_raw ex_d]) ex_h).2.
(** Two columns set to one slice with spare capacity. *)
Definition c37_h0 : heap := Heap [[VInt 0; VInt 0]] [] [] [] [].
Definition c37_s : slice := Slice 0 0 0 2.
Definition c37_prog : M raw :=
  let* r := new_raw in
  let* r := b_set KInt r "a" c37_s in
  let* r := b_set KInt r "b" c37_s in
  let* r := b_add KInt r "a" [VInt 1] in b_add KInt r "b" [VInt 2].
Definition c37_r := (run_raw c37_prog c37_h0).1.
Definition c37_h := (run_raw c37_prog c37_h0).2.
End wit.

(** ** C24 *)
Lemma C24_hash_view_partial_main : forall (rt : GoRT) (h : heap) (d : dframe) (cols : list string),
  wf h d -> cols <> [] ->
  (forall c, c ∈ cols -> is_Some (t_cols (abs h d) !! (KObj, c))) ->
  (exists k, is_Some (t_cols (abs h d) !! k) /\ k.2 ∉ cols) ->
  exists v h', hash_strings_view d cols h = Ok (v, h') /\ wf h' v /\ preserved h h' /\
    abs h' v = t_hash cols (abs h d).
Proof.
  intros rt h d cols W H1 H2 H3.
  destruct (hash_strings_view_spec h d cols W H1 H2 H3) as (v & h' & ? & ? & ? & ?).
  exists v, h'. do 2 (split; [done|]). split; [by apply ext_preserved|done].
Qed.
Lemma C24_hashed_columns_main : forall (t : table) (cols : list string) (k : kind) (c : string),
  (forall c, c ∈ cols -> is_Some (t_cols t !! (KObj, c))) ->
  t_cols (t_hash cols t) !! (k, c) =
    if decide (c ∈ cols) then
      match k with KInt => fmap spec_hash <$> t_cols t !! (KObj, c) | _ => None end
    else t_cols t !! (k, c).
Proof.
  intros t cols k c Hc. unfold t_hash. simpl. case_decide as Hin.
  - destruct (Hc c Hin) as [x Hx]. destruct (decide (k = KInt)) as [->|Hk].
    + rewrite (hash_cols_lookup_in _ _ _ c x Hin Hx). by rewrite Hx.
    + rewrite hash_cols_lookup_out by (by left).
      destruct k; try done; apply map_filter_lookup_None; right; intros y _ Hy; by apply Hy.
  - rewrite hash_cols_lookup_out by (by right).
    destruct (t_cols t !! (k, c)) as [x|] eqn:E.
    + by apply map_filter_lookup_Some.
    + apply map_filter_lookup_None. by left.
Qed.
Lemma C24_hash_range_main : forall (s : string), exists z,
  spec_hash (VObj (OStr s)) = VInt z /\ (0 <= z < 2 ^ 63 - 1)%Z /\ (0 <= spec_fnv1a s < 2 ^ 64)%Z.
Proof.
  intros s. exists (spec_fnv1a s mod (2 ^ 63 - 1))%Z. split; [done|].
  split; [apply Z.mod_pos_bound; lia|]. unfold spec_fnv1a.
  assert (H : forall l z, (0 <= z < 2 ^ 64)%Z ->
    (0 <= foldl (fun h c => (Z.lxor h (Z.of_N (Ascii.N_of_ascii c)) * 1099511628211) mod 2 ^ 64)%Z z l < 2 ^ 64)%Z).
  { induction l as [|c l IH]; intros z Hz; [done|]. cbn [foldl]. apply IH. apply Z.mod_pos_bound. lia. }
  apply H. lia.
Qed.
Lemma C24_all_columns_refuted_main : exists (rt : GoRT) (h : heap) (d : dframe) cols v h',
  wf h d /\ (forall c, c ∈ cols -> is_Some (t_cols (abs h d) !! (KObj, c)) /\ c ∈ t_strs (abs h d)) /\
  hash_strings_view d cols h = Ok (v, h') /\ "s" ∈ cols /\
  is_Some (t_cols (abs h' v) !! (KObj, "s")) /\
  t_cols (abs h' d) !! (KInt, "s") <> t_cols (abs h d) !! (KInt, "s").
Proof.
  exists ex_rt, c24_h, c24_d, ["s"], c24_v, c24_h'.
  split; [apply (wf_check_sound _ _ 2); by vm_compute|].
  split. { intros c ->%elem_of_list_singleton. split; apply (bool_decide_unpack _); by vm_compute. }
  split; [by vm_compute|]. split; [by left|]. split; [by apply (bool_decide_unpack _); vm_compute|by vm_compute].
Qed.

(** ** C25 *)
Lemma first_seen_mem vs : forall ks s, s ∈ first_seen ks vs <-> s ∈ ks \/ VObj (OStr s) ∈ vs.
Proof.
  induction vs as [|v vs IH]; intros ks s; cbn [first_seen].
  - split; [by left|]. intros [?|H]; [done|]. by apply elem_of_nil in H.
  - assert (Hskip : first_seen ks (v :: vs) = first_seen ks vs -> v <> VObj (OStr s) ->
              s ∈ first_seen ks (v :: vs) <-> s ∈ ks \/ VObj (OStr s) ∈ v :: vs).
    { intros -> Hne. rewrite IH, elem_of_cons. split; [tauto|]. intros [?|[?|?]]; [tauto|congruence|tauto]. }
    destruct v as [[|x|]| | |]; try (apply Hskip; done).
    rewrite IH, elem_of_cons. case_decide as Hx.
    + split; [tauto|]. intros [?|[[= ->]|?]]; tauto.
    + rewrite elem_of_app, elem_of_list_singleton. split; [intros [[?| ->]|?]; auto|].
      intros [?|[[= ->]|?]]; auto.
Qed.
Lemma C25_label_bijection_main : forall (rt : GoRT) (h : heap) (d : dframe) (c : string) (col : list val),
  wf h d -> t_cols (abs h d) !! (KObj, c) = Some col ->
  match label_to_int d c h with
  | Ok ((l, m), h') => h' = h /\ c ∈ t_strs (abs h d) /\ Forall string_val col /\
      (* the map is a bijection from the strings of the column to 0..k-1 *)
      (forall s, is_Some (m !! s) <-> VObj (OStr s) ∈ col) /\
      (forall s1 s2 o, m !! s1 = Some o -> m !! s2 = Some o -> s1 = s2) /\
      (forall o, (0 <= o < Z.of_nat (size m))%Z <-> exists s, m !! s = Some o) /\
      (* in the order of first appearance *)
      (forall i s, first_seen [] col !! i = Some s <-> m !! s = Some (Z.of_nat i)) /\
      (* every row is converted *)
      Forall2 (fun v o => match v with
                          | VObj (OStr s) => m !! s = Some o
                          | _ => o = (-1)%Z end) col l
  | Panic => c ∉ t_strs (abs h d) \/ Exists (fun v => ~ string_val v) col
  end.
Proof.
  intros rt h d c col W Hc. pose proof (label_to_int_spec h d c col W Hc) as H.
  destruct (label_to_int d c h) as [[[l m] h']|]; [|done].
  destruct H as (-> & Hs & Hf & (Hnd & Hsz & Hm) & Hl).
  do 3 (split; [done|]). split; [|split; [|split; [|split; [|done]]]].
  - intros s. split.
    + intros [o Ho]. apply Hm in Ho as [_ Ho]. apply elem_of_list_lookup_2 in Ho.
      apply first_seen_mem in Ho as [Ho|Ho]; [by apply elem_of_nil in Ho|done].
    + intros Hin. assert (s ∈ first_seen [] col) as [i Hi]%elem_of_list_lookup by (apply first_seen_mem; by right).
      exists (Z.of_nat i). apply Hm. split; [lia|]. by rewrite Nat2Z.id.
  - intros s1 s2 o H1%Hm H2%Hm. destruct H1 as [_ H1], H2 as [_ H2]. congruence.
  - intros o. split.
    + intros Ho. destruct (lookup_lt_is_Some_2 (first_seen [] col) (Z.to_nat o)) as [s Es]; [lia|].
      exists s. apply Hm. split; [lia|done].
    + intros [s [Ho Es]%Hm]. apply lookup_lt_Some in Es. lia.
  - intros i s. rewrite Hm, Nat2Z.id. split; [|by intros [_ ?]]. intros H. split; [lia|done].
Qed.

(** ** C26, C29 *)
Lemma C26_copy_values_main : forall (rt : GoRT) (h : heap) (d : dframe) (c : string), wf h d ->
  match copy_values d c h with
  | Ok (vs, h') => h' = h /\ length vs = num_rows d /\ exists k, t_cols (abs h d) !! (k, c) = Some vs
  | Panic => forall k, t_cols (abs h d) !! (k, c) = None
  end.
Proof.
  intros rt h d c W. rewrite (copy_values_spec h d c W). unfold any_col.
  assert (Hl : forall k vs, t_cols (abs h d) !! k = Some vs -> length vs = num_rows d).
  { intros k vs E. by destruct (abs_ok h d W k vs E). }
  destruct (t_cols (abs h d) !! (KObj, c)) eqn:E1; [eauto 6|].
  destruct (t_cols (abs h d) !! (KFloat, c)) eqn:E2; [eauto 6|].
  destruct (t_cols (abs h d) !! (KInt, c)) eqn:E3; [eauto 6|].
  destruct (t_cols (abs h d) !! (KBool, c)) eqn:E4; [eauto 6|]. by intros [].
Qed.
Lemma C29_vec_dense_main : forall (rt : GoRT) (h : heap) (d : dframe) (c : string), wf h d ->
  vec_dense d c h = match t_cols (abs h d) !! (KFloat, c) with Some vs => Ok (vs, h) | None => Panic end /\
  vec_dense_copy d c h = match t_cols (abs h d) !! (KFloat, c) with Some vs => Ok (vs, h) | None => Panic end.
Proof. intros rt h d c W. split; [by apply vec_dense_spec|by apply vec_dense_copy_spec]. Qed.

(** ** C30 *)
Lemma C30_row_concat_partial_main : forall (rt : GoRT) (h : heap) (d0 : dframe) (rest : list dframe),
  Forall (wf h) (d0 :: rest) ->
  match row_concat (d0 :: rest) h with
  | Ok (Some v, h') => Forall (fun d => has_cols (abs h d0) (abs h d)) rest /\ wf h' v /\
      abs h' v = t_stack (abs h d0) (abs h <$> d0 :: rest) /\ preserved h h' /\ independent h h' v
  | Ok (None, h') => Exists (fun d => ~ has_cols (abs h d0) (abs h d)) rest /\ preserved h h'
  | Panic => False
  end.
Proof.
  intros rt h d0 rest F. destruct (row_concat_spec h d0 rest F) as (o & h' & -> & X & H).
  destruct o as [v|].
  - destruct H as ([_ H1]%Forall_cons & H2 & H3 & H4 & H5 & _ & _ & _ & H6 & _).
    do 3 (split; [done|]). split; [by apply ext_preserved|]. apply independent_new; auto. lia.
  - split; [|by apply ext_preserved]. apply Exists_cons in H as [H|H]; [|done]. exfalso. apply H. unfold has_cols. set_solver.
Qed.
Lemma C30_error_columns_refuted_main : exists (rt : GoRT) h d0 d1 v h',
  wf h d0 /\ wf h d1 /\ ~ same_cols (abs h d0) (abs h d1) /\
  row_concat [d0; d1] h = Ok (Some v, h') /\ t_cols (abs h' v) !! (KInt, "q") <> Some [VInt 7].
Proof.
  exists ex_rt, c30_h, c30_p, c30_pq, c30_v, c30_h'.
  split; [apply (wf_check_sound _ _ 2); by vm_compute|].
  split; [apply (wf_check_sound _ _ 1); by vm_compute|].
  split; [intros H%(f_equal size); by vm_compute in H|]. split; by vm_compute.
Qed.

(** ** C31 *)
Lemma C31_concat_view_partial_main : forall (rt : GoRT) (h : heap) (d0 : dframe) (rest : list dframe),
  Forall (wf h) (d0 :: rest) ->
  let ts := abs h <$> d0 :: rest in
  match column_concat_view (d0 :: rest) h with
  | Ok (None, h') => h' = h /\
      (~ NoDup (concat (t_names <$> ts)) \/ exists d, d ∈ rest /\ inds d <> inds d0)
  | Ok (Some v, h') => NoDup (concat (t_names <$> ts)) /\ preserved h h' /\
      (Forall (fun d => inds d = inds d0) rest ->
         abs h' v = t_beside (abs h d0) ts (if decide (t_strs (abs h d0) = ∅) then ∅ else ⋃ (t_strs <$> ts)) /\
         (forall d k j, d ∈ d0 :: rest -> is_Some (t_cols (abs h d) !! k) -> cell_of h' v k j = cell_of h d k j) /\
         ((exists n, Forall (fun d => wfn h d n) (d0 :: rest)) -> wf h' v))
  | Panic => False
  end.
Proof.
  intros rt h d0 rest F ts. destruct (column_concat_view_spec h d0 rest F) as (o & h' & -> & X & A & H).
  cbv zeta in H. fold ts in H. destruct o as [v|].
  - destruct H as (H1 & H2 & H3 & H4 & H5 & H6 & H7 & H8 & H9 & H10 & H11 & H12 & H13).
    split; [done|]. split; [by apply ext_preserved|]. intros Hi. split; [by apply H13|]. split.
    + intros d k j Hd [col Hk]. rewrite abs_cols_lookup in Hk. apply fmap_Some in Hk as (s & Hs & ->).
      assert (mp h' (r_maps (d_raw v)) !! k = Some s) as E by (apply H8; eauto).
      unfold cell_of. rewrite E, Hs. simpl. unfold inds at 1. rewrite H3. fold (inds d0).
      apply elem_of_cons in Hd as [->|Hd]; [done|]. rewrite Forall_forall in Hi. by rewrite (Hi d Hd).
    + intros [n Hn]. exists n. by apply H12.
  - destruct H as [-> [H|[_ H]]]; split; try done; [by left|]. right.
    apply Exists_exists in H as (d & Hd & Hne). exists d. split; [done|]. congruence.
Qed.
Lemma C31_rows_refuted_main : exists (rt : GoRT) h d0 d1 v h',
  wf h d0 /\ wf h d1 /\ t_rows (abs h d0) <> t_rows (abs h d1) /\
  column_concat_view [d0; d1] h = Ok (Some v, h') /\ ~ wf h' v /\
  (* reading an existing row of the result panics *)
  (2 < t_rows (abs h' v))%nat /\ get_cell KInt v "p" 2 h' = Panic.
Proof.
  exists ex_rt, c30_h, c30_q, c30_p, c31_v, c31_h'.
  split; [apply (wf_check_sound _ _ 3); by vm_compute|].
  split; [apply (wf_check_sound _ _ 2); by vm_compute|].
  split; [by vm_compute|]. split; [by vm_compute|].
  split; [|split; by vm_compute; lia || by vm_compute].
  intros [n W]. 
  assert (E1 : exists s, mp c31_h' (r_maps (d_raw c31_v)) !! (KInt, "p") = Some s /\ s_len s = 2)
    by (eexists; split; by vm_compute).
  assert (E2 : exists s, mp c31_h' (r_maps (d_raw c31_v)) !! (KInt, "q") = Some s /\ s_len s = 3)
    by (eexists; split; by vm_compute).
  destruct E1 as (s1 & E1 & L1), E2 as (s2 & E2 & L2).
  destruct (wfn_col _ _ _ _ _ W E1) as (_ & H1 & _). destruct (wfn_col _ _ _ _ _ W E2) as (_ & H2 & _). lia.
Qed.
Lemma C31_string_marks_refuted_main : exists (rt : GoRT) h d0 d1 v h',
  wf h d0 /\ wf h d1 /\ inds d0 = inds d1 /\ "t" ∈ t_strs (abs h d1) /\
  column_concat_view [d0; d1] h = Ok (Some v, h') /\
  is_Some (t_cols (abs h' v) !! (KObj, "t")) /\ "t" ∉ t_strs (abs h' v).
Proof.
  exists ex_rt, c30_h, c30_p, c30_t, c31_v2, c31_h2.
  split; [apply (wf_check_sound _ _ 2); by vm_compute|].
  split; [apply (wf_check_sound _ _ 2); by vm_compute|].
  split; [by vm_compute|]. split; [apply (bool_decide_unpack _); by vm_compute|].
  split; [by vm_compute|]. split; apply (bool_decide_unpack _); by vm_compute.
Qed.
Lemma C31_hash_collision_refuted_main : exists (rt : GoRT) h d0 d1 v h',
  wf h d0 /\ wf h d1 /\ inds d0 <> inds d1 /\
  column_concat_view [d0; d1] h = Ok (Some v, h') /\
  t_cols (abs h' v) !! (KInt, "b") <> t_cols (abs h d1) !! (KInt, "b").
Proof.
  exists ex_rt, c31_bvh, c31_av, c31_bv, c31_v3, c31_h3.
  split; [apply (wf_check_sound _ _ 8); by vm_compute|].
  split; [apply (wf_check_sound _ _ 8); by vm_compute|].
  split; [by vm_compute|]. split; by vm_compute.
Qed.

(** ** C32 *)
Lemma C32_copy_concat_main : forall (rt : GoRT) (h : heap) (d0 : dframe) (rest : list dframe),
  Forall (wf h) (d0 :: rest) ->
  let ts := abs h <$> d0 :: rest in
  match column_copy_concat (d0 :: rest) h with
  | Ok (Some v, h') => Forall (fun t => t_rows t = t_rows (abs h d0)) ts /\ NoDup (concat (t_names <$> ts)) /\
      wf h' v /\
      abs h' v = t_beside (abs h d0) ts (if decide (t_strs (abs h d0) = ∅) then ∅ else ⋃ (t_strs <$> ts)) /\
      preserved h h' /\ independent h h' v
  | Ok (None, h') => preserved h h' /\
      (~ Forall (fun t => t_rows t = t_rows (abs h d0)) ts \/ ~ NoDup (concat (t_names <$> ts)))
  | Panic => False
  end.
Proof.
  intros rt h d0 rest F ts. destruct (column_copy_concat_spec h d0 rest F) as (o & h' & -> & X & H).
  cbv zeta in H. fold ts in H. destruct o as [v|].
  - destruct H as (H1 & H2 & H3 & H4 & H5 & H6 & H7 & H8 & H9 & H10 & H11).
    split. { apply Forall_fmap. constructor; [done|]. eapply Forall_impl; [exact H1|]. done. }
    do 3 (split; [done|]). split; [by apply ext_preserved|]. by apply independent_new.
  - split; [by apply ext_preserved|]. destruct H as [H|H]; [left|by right].
    intros [_ H']%Forall_fmap%Forall_cons. apply Exists_exists in H as (d & Hd & Hne).
    rewrite Forall_forall in H'. by apply Hne, (H' d Hd).
Qed.
Lemma C32_beside_columns_main : forall (t0 : table) (ts : list table) strs (k : key) (col : list val),
  NoDup (concat (t_names <$> ts)) ->
  t_cols (t_beside t0 ts strs) !! k = Some col <-> exists t, t ∈ ts /\ t_cols t !! k = Some col.
Proof.
  intros t0 ts strs k col Hnd. unfold t_beside. simpl. rewrite union_list_lookup.
  - split.
    + intros (m & (t & -> & Ht)%elem_of_list_fmap & Hk). eauto.
    + intros (t & Ht & Hk). exists (t_cols t). split; [by apply (elem_of_list_fmap_1 t_cols)|done].
  - intros m1 m2 k' v1 v2 (t1 & -> & H1)%elem_of_list_fmap (t2 & -> & H2)%elem_of_list_fmap E1 E2.
    assert (t1 = t2); [|congruence].
    apply (concat_nodup_inj t_names ts t1 t2 k'.2); [done..| |];
      apply (elem_of_list_fmap_1 (fun k : key => k.2)); apply elem_of_elements, elem_of_dom; eauto.
Qed.

(** ** C33 *)
Lemma C33_smart_concat_partial_main : forall (rt : GoRT) (h : heap) (d0 : dframe) (rest : list dframe),
  Forall (wf h) (d0 :: rest) ->
  (* when none of them is an index view, the row counts agree *)
  ((forall d, d ∈ d0 :: rest -> d_viewed d = false) -> forall d, d ∈ rest -> num_rows d = num_rows d0) ->
  (* the hash tells the index lists of the inputs apart *)
  (forall d, d ∈ rest -> hash_int_slice (inds d) = hash_int_slice (inds d0) -> inds d = inds d0) ->
  let ts := abs h <$> d0 :: rest in
  match column_smart_concat (d0 :: rest) h with
  | Ok (Some v, h') => NoDup (concat (t_names <$> ts)) /\ preserved h h' /\
      t_rows (abs h' v) = t_rows (abs h d0) /\
      (forall k col, t_cols (abs h' v) !! k = Some col <-> exists t, t ∈ ts /\ t_cols t !! k = Some col)
  | Ok (None, h') => preserved h h' /\
      (~ Forall (fun t => t_rows t = t_rows (abs h d0)) ts \/ ~ NoDup (concat (t_names <$> ts)))
  | Panic => False
  end.
Proof.
  intros rt h d0 rest F Hrows Hh ts. unfold column_smart_concat.
  destruct (column_concat_view_spec h d0 rest F) as (o & h1 & E1 & X1 & A1 & H).
  rewrite (bind_eq _ _ _ _ _ E1). cbv zeta in H. fold ts in H. destruct o as [v|].
  - destruct H as (H1 & H2 & H3 & H4 & H5 & H6 & H7 & H8 & H9 & H10 & H11 & H12 & H13). unfold ret. cbv beta iota.
    split; [done|]. split; [by apply ext_preserved|].
    assert (Hi : Forall (fun d => inds d = inds d0) rest).
    { destruct (existsb d_viewed (d0 :: rest)) eqn:Ev.
      - specialize (H2 eq_refl). apply Forall_forall. intros d Hd. apply Hh; [done|].
        rewrite Forall_forall in H2. by apply H2.
      - assert (Hnv : forall d, d ∈ d0 :: rest -> d_viewed d = false).
        { intros d Hd. apply not_true_iff_false. intros Hv.
          assert (existsb d_viewed (d0 :: rest) = true); [|congruence].
          apply existsb_exists. exists d. split; [by apply elem_of_list_In|done]. }
        specialize (Hrows Hnv). rewrite Forall_forall in F.
        apply Forall_forall. intros d Hd.
        destruct (F d ltac:(by right)) as [n W]. destruct (F d0 ltac:(by left)) as [n0 W0].
        destruct (wf_cont _ _ _ W (Hnv d ltac:(by right))) as [-> _].
        destruct (wf_cont _ _ _ W0 (Hnv d0 ltac:(by left))) as [-> _].
        by rewrite (Hrows d). }
    rewrite (H13 Hi). split; [done|]. intros k col. by apply C32_beside_columns_main.
  - destruct H as [-> _]. pose proof (C32_copy_concat_main rt h d0 rest F) as HC. cbv zeta in HC. fold ts in HC.
    change (match column_copy_concat (d0 :: rest) h with
      | Ok (Some v, h') => NoDup (concat (t_names <$> ts)) /\ preserved h h' /\
      t_rows (abs h' v) = t_rows (abs h d0) /\
      (forall k col, t_cols (abs h' v) !! k = Some col <-> exists t, t ∈ ts /\ t_cols t !! k = Some col)
  | Ok (None, h') => preserved h h' /\
      (~ Forall (fun t => t_rows t = t_rows (abs h d0)) ts \/ ~ NoDup (concat (t_names <$> ts)))
  | Panic => False
  end).
    destruct (column_copy_concat (d0 :: rest) h) as [[[v|] h']|]; [|done|done].
    destruct HC as (H1 & H2 & H3 & H4 & H5 & _). rewrite H4. split; [done|]. split; [done|]. split; [done|].
    intros k col. by apply C32_beside_columns_main.
Qed.
Lemma C33_smart_concat_refuted_main : exists (rt : GoRT) h d0 d1 v h',
  wf h d0 /\ wf h d1 /\ column_smart_concat [d0; d1] h = Ok (Some v, h') /\
  t_cols (abs h' v) !! (KInt, "b") <> t_cols (abs h d1) !! (KInt, "b").
Proof.
  exists ex_rt, c31_bvh, c31_av, c31_bv, c33_v, c33_h.
  split; [apply (wf_check_sound _ _ 8); by vm_compute|].
  split; [apply (wf_check_sound _ _ 8); by vm_compute|].
  split; by vm_compute.
Qed.

(** ** C34 *)
Lemma C34_merge_rows_partial_main : forall (rt : GoRT) (h : heap) (l : list raw), Forall (raw_ok h) l ->
  exists r h', merge_raw_rows l h = Ok (r, h') /\ preserved h h' /\ raw_ok h' r /\
    (forall k s, mp h' (r_maps r) !! k = Some s -> length (h_arr h) <= s_arr s \/ s_cap s = 0) /\
    (forall k, match raw_cols h' r !! k with
       | Some vs => (exists d, d ∈ l /\ is_Some (raw_cols h d !! k)) /\
           vs = concat ((fun d => default [] (raw_cols h d !! k)) <$> l)
       | None => forall d, d ∈ l -> raw_cols h d !! k = None
       end).
Proof.
  intros rt h l F. destruct (merge_raw_rows_spec h l F) as (r & h' & E & X & R & _ & _ & _ & _ & _ & N & _ & J).
  exists r, h'. split; [done|]. split; [by apply ext_preserved|]. split; [done|]. split; [done|].
  intros k. specialize (J k). unfold joined in J. by rewrite <- list_fmap_compose in J.
Qed.
Lemma C34_string_columns_refuted_main : exists (rt : GoRT) h d r h',
  wf h d /\ "s" ∈ t_strs (abs h d) /\ merge_raw_rows [d_raw d; d_raw d] h = Ok (r, h') /\
  is_Some (raw_cols h' r !! (KObj, "s")) /\ r_strs r = None.
Proof.
  exists ex_rt, ex_h, ex_d, c34_r, c34_h. split; [exact ex_wf|].
  split; [apply (bool_decide_unpack _); by vm_compute|]. split; [by vm_compute|].
  split; [apply (bool_decide_unpack _); by vm_compute|by vm_compute].
Qed.

(** ** C36, C37 *)
Lemma C36_to_dataframe_main : forall (rt : GoRT) (h : heap) (r : raw) (ord : list (key * slice)),
  raw_ok h r -> (forall x, r_strs r = Some x -> x < length (h_str h)) ->
  ord ≡ₚ map_to_list (mp h (r_maps r)) ->
  match to_dataframe_ord ord r h with
  | Ok (d, h') => exists n, (forall k vs, raw_cols h r !! k = Some vs -> length vs = n) /\
      (raw_cols h r = ∅ -> n = 0) /\ wf h' d /\ preserved h h' /\
      abs h' d = Table n (raw_cols h r) (ostr h (r_strs r)) (r_enc r) (r_cpu r)
  | Panic => exists k1 k2 v1 v2, raw_cols h r !! k1 = Some v1 /\ raw_cols h r !! k2 = Some v2 /\ length v1 <> length v2
  end.
Proof.
  intros rt h r ord R S P. pose proof (to_dataframe_ord_spec h r ord R S P) as H.
  destruct (to_dataframe_ord ord r h) as [[d h']|]; [|done].
  destruct H as (n & H1 & H2 & H3 & H4 & _ & _ & H5). exists n. do 3 (split; [done|]).
  split; [by apply ext_preserved|done].
Qed.
Lemma C37_builder_partial_main : forall (rt : GoRT) (h : heap) (os : list bop), Forall bop_typed os ->
  let b := foldl spec_bop (BState ∅ ∅ None) os in
  exists r h', (let* r := new_raw in run_bops r os) h = Ok (r, h') /\ preserved h h' /\ raw_ok h' r /\
    raw_cols h' r = bs_cols b /\ ostr h' (r_strs r) = bs_strs b /\ r_enc r = bs_enc b.
Proof.
  intros rt h os F b. destruct (new_raw_built h) as (r0 & h0 & E0 & B0 & _).
  destruct (run_bops_spec h os h0 r0 _ B0 F) as (r & h' & E & B & _).
  exists r, h'. split; [by rewrite (bind_eq _ _ _ _ _ E0)|].
  split; [apply ext_preserved; apply B|]. destruct (built_raw_ok _ _ _ _ B) as [? ?].
  do 2 (split; [done|]). split; apply B.
Qed.
Lemma C37_aliased_set_refuted_main : exists (rt : GoRT) (h : heap) (s : slice) r h',
  (let* r := new_raw in
   let* r := b_set KInt r "a" s in
   let* r := b_set KInt r "b" s in
   let* r := b_add KInt r "a" [VInt 1] in b_add KInt r "b" [VInt 2]) h = Ok (r, h') /\
  col_ok h KInt s /\ sl_vals h s = [] /\ raw_cols h' r !! (KInt, "a") = Some [VInt 2].
Proof.
  exists ex_rt, c37_h0, c37_s, c37_r, c37_h. split; [by vm_compute|].
  split; [|split; by vm_compute]. split; [by vm_compute; lia|]. split; [by vm_compute; lia|].
  apply (bool_decide_unpack _). by vm_compute.
Qed.
