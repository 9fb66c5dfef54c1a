(** The statements of Prop_Uid.v, proved. *)
From Coq Require Import NArith Sorted.
From Verif Require Import M_Uid P_Uid.
From Verif Require Export P_ReadMain P_WriteMain.
From Verif Require Import P_View2 P_Share P_Detach P_Csv.
From stdpp Require Import strings list.
From Verif Require Import Spec_Uid P_Base P_Check.

Lemma C100_printed_main : forall v : N, exists bits ts, StronglySorted N.lt bits /\
  (forall b, b ∈ bits <-> N.testbit v b = true) /\ Forall2 numeral36 bits ts /\ printable_uid v = barred ts.
Proof. exact uid_printed. Qed.
Lemma C100_unique_main : forall v w : N, printable_uid v = printable_uid w -> v = w.
Proof. exact uid_unique. Qed.
Lemma C100_generated_main : forall r : N, exists b, (b < 64)%N /\ forall i, N.testbit (gen_uid r) i = true <-> i = b.
Proof. exact uid_generated. Qed.

(** Some cell of the one dataframe is a cell of the other. *)
Definition shares (h : heap) (d1 d2 : dframe) : Prop :=
  exists k1 j1 k2 j2 a, cell_of h d1 k1 j1 = Some a /\ cell_of h d2 k2 j2 = Some a.
(** The operations that make a dataframe from another one. *)
Inductive u_op := UView | UColumns (cols : list string) | UDetached (cols : list string) (rnd : N)
  | UShallow (rnd : N) | UCopy (rnd : N).
Definition u_run {rt : GoRT} (op : u_op) (du : dframe * N) : M (dframe * N) :=
  match op with
  | UView => ret (u_view du)
  | UColumns cols => u_column_view du cols
  | UDetached cols rnd => u_detached_view du cols rnd
  | UShallow rnd => u_shallow_copy du rnd
  | UCopy rnd => u_copy du rnd
  end.

Definition keeps (u u' : N) : Prop := forall i, N.testbit u i = true -> N.testbit u' i = true.

Lemma u_op_spec {rt : GoRT} h d u op : wf h d ->
  exists v u' h', u_run op (d, u) h = Ok ((v, u'), h') /\ ext h h' /\ wf h' v /\
    forall k, young_col h h' v k \/
      (keeps u u' /\ inds v = inds d /\
       (mp h' (r_maps (d_raw v)) !! k = mp h (r_maps (d_raw d)) !! k \/ mp h' (r_maps (d_raw v)) !! k = None)).
Proof.
  intros W. destruct op as [|cols|cols rnd|rnd|rnd]; simpl u_run.
  - exists (view d), u, h. split; [done|]. split; [apply ext_refl|]. split; [by apply wf_view|].
    intros k. right. split; [by intros i|]. split; [done|by left].
  - unfold u_column_view. simpl fst. simpl snd. destruct (decide (cols = [])) as [-> | Hne].
    + exists (view d), u, h. split; [done|]. split; [apply ext_refl|]. split; [by apply wf_view|].
      intros k. right. split; [by intros i|]. split; [done|by left].
    + destruct (column_view_spec h d cols W Hne) as (v & h' & E & _ & W' & X & _ & _ & _ & Hm & _ & Hi & _).
      exists v, u, h'. split; [by rewrite (bind_eq _ _ _ _ _ E)|]. split; [done|]. split; [done|].
      intros k. right. split; [by intros i|]. split; [by unfold inds; rewrite Hi|]. rewrite Hm.
      destruct (mp h (r_maps (d_raw d)) !! k) as [s|] eqn:Ek.
      * destruct (decide (k.2 ∈ cols)); [left; by apply map_filter_lookup_Some_2|right].
        apply map_filter_lookup_None. right. intros s' Hs'. done.
      * right. apply map_filter_lookup_None. by left.
  - destruct (detached_view_spec h d cols W) as (v & h' & E & X & W' & _ & Hi & _ & _ & Hy & Ho).
    set (m := mp h (r_maps (d_raw d))) in *.
    set (u' := if decide (cols = [] \/ length cols = num_columns m) then gen_uid rnd else N.lor u (gen_uid rnd)).
    exists v, u', h'. split.
    { unfold detached_view in E. apply bind_ok in E as (r' & h1 & E1 & E2). apply ret_ok in E2 as [<- <-].
      unfold u_detached_view. cbn [fst snd].
      assert (Eu : u_unshare (d_raw (view d), u) cols rnd h = Ok ((r', u'), h1)).
      { unfold u_unshare.
        rewrite (bind_eq _ _ h (oshr h (r_shared (d_raw d))) h) by done.
        change (r_sharedMaps (d_raw (view d))) with true. cbn [negb andb].
        rewrite (bind_eq _ _ h m h) by done.
        rewrite (bind_eq _ _ _ _ _ E1). done. }
      by rewrite (bind_eq _ _ _ _ _ Eu). }
    split; [done|]. split; [done|]. intros k.
    destruct (decide (k.2 ∈ unshare_set (d_raw d) m cols)) as [Hin|Hin]; [left; by apply Hy|].
    unfold unshare_set in Hin. unfold u'. case_decide as Hc.
    + left. intros s Hs. rewrite (Ho k) in Hs; [|unfold unshare_set; by rewrite decide_True].
      destruct Hin. apply elem_of_names. destruct k as [k c]. by exists k, s.
    + right. split; [|split; [done|]].
      * intros i Hi'. by rewrite N.lor_spec, Hi'.
      * left. apply Ho. unfold unshare_set. by rewrite decide_False.
  - destruct (shallow_copy_spec h d W) as (v & h' & E & X & _ & W' & _ & _ & _ & Hm & _ & _ & Hi & _).
    exists v, u, h'. split.
    { unfold shallow_copy in E. apply bind_ok in E as (e & h1 & E1 & E2). apply bind_ok in E2 as (r & h2 & E2 & E3).
      apply ret_ok in E3 as [<- <-]. unfold u_shallow_copy. rewrite (bind_eq _ _ _ _ _ E1).
      assert (Em : mp h1 (r_maps (d_raw e)) = ∅).
      { unfold empty_df in E1. injection E1 as <- <-. simpl. unfold mp. simpl. by rewrite lookup_app_r, Nat.sub_diag by lia. }
      assert (Eu : u_transfer (d_raw e, gen_uid rnd) (d_raw d, u) h1 = Ok ((r, u), h2)).
      { unfold u_transfer. cbn [fst snd]. rewrite (bind_eq _ _ h1 (∅ : gmap key slice) h1) by (by rewrite <- Em).
        rewrite (bind_eq _ _ _ _ _ E2). done. }
      by rewrite (bind_eq _ _ _ _ _ Eu). }
    split; [done|]. split; [done|]. intros k. right. split; [by intros i|]. split; [by unfold inds; rewrite Hi|]. left. by rewrite Hm.
  - destruct (copy_df_spec h d W) as (v & h' & E & X & W' & _ & _ & _ & _ & _ & Hy & _).
    exists v, (gen_uid rnd), h'. split; [unfold u_copy; by rewrite (bind_eq _ _ _ _ _ E)|].
    split; [done|]. split; [done|]. intros k. left. apply Hy.
Qed.

Lemma overlap_keeps u u' u0 : keeps u u' -> overlap u u0 -> overlap u' u0.
Proof. intros H (i & A & B). exists i. auto. Qed.

Lemma C100_invariant_main : forall (rt : GoRT) (h : heap) (d : dframe) (u : N) (op : u_op), wf h d ->
  exists v u' h', u_run op (d, u) h = Ok ((v, u'), h') /\ wf h' v /\ preserved h h' /\
    forall d0 u0, wf h d0 -> (shares h d d0 -> overlap u u0) -> shares h' v d0 -> overlap u' u0.
Proof.
  intros rt h d u op W. destruct (u_op_spec h d u op W) as (v & u' & h' & E & X & W' & Hk).
  exists v, u', h'. split; [done|]. split; [done|]. split; [by apply ext_preserved|].
  intros d0 u0 W0 Ho (k1 & j1 & k2 & j2 & a & H1 & H2).
  destruct (Hk k1) as [Hy | (Hu & Hi & Hm)].
  - destruct (cells_apart_old h h' v k1 d0 k2 Hy W0 X j1 j2 a H1 H2).
  - apply (overlap_keeps u); [done|]. apply Ho. exists k1, j1, k2, j2, a.
    rewrite (cell_of_ext h h' d0 k2 j2 X W0) in H2. split; [|done].
    unfold cell_of in H1 |- *. rewrite Hi in H1. destruct Hm as [Hm | Hm]; rewrite Hm in H1; [done|]. done.
Qed.

Lemma C100_hash_partial_main : forall (rt : GoRT) (h : heap) (d : dframe) (u : N) cols rnd v u' h',
  u_hash_strings_view (d, u) cols rnd h = Ok ((v, u'), h') -> length cols <> size (t_cols (abs h d)) ->
  hash_strings_view d cols h = Ok (v, h') /\ forall u0, overlap u u0 -> overlap u' u0.
Proof.
  intros rt h d u cols rnd v u' h' E Hl. unfold u_hash_strings_view in E. case_decide as Hc.
  - apply ret_ok in E as [[= <- <-] <-]. split; [|done]. unfold hash_strings_view. by rewrite decide_True.
  - cbn [fst snd] in E. apply bind_ok in E as (m & h1 & E1 & E). injection E1 as <- <-.
    rewrite decide_False in E.
    2: { intros Hx. apply Hl. rewrite Hx. unfold abs. simpl. unfold num_columns. by rewrite map_size_fmap. }
    apply bind_ok in E as (v' & h1 & E1 & E2). apply ret_ok in E2 as [[= <- <-] <-]. split; [done|].
    intros u0. apply overlap_keeps. intros i Hi. by rewrite N.lor_spec, Hi.
Qed.

(** Some column of the storage [m] is stored in the array of a column of [m']. *)
Definition common (m m' : gmap key slice) : Prop :=
  exists k s k' s', m !! k = Some s /\ m' !! k' = Some s' /\ s_arr s = s_arr s'.

Lemma C100_transfer_main : forall (rt : GoRT) (h : heap) (d from : dframe) (u v : N), wf h d -> wf h from ->
  exists r w h', u_transfer (d_raw d, u) (d_raw from, v) h = Ok ((r, w), h') /\
    transfer_raw (d_raw d) (d_raw from) h = Ok (r, h') /\
    forall m0 u0, (common (mp h (r_maps (d_raw d))) m0 -> overlap u u0) ->
      (common (mp h (r_maps (d_raw from))) m0 -> overlap v u0) ->
      common (mp h' (r_maps r)) m0 -> overlap w u0.
Proof.
  intros rt h d from u v [n W] [n' W'].
  pose proof (wf_map _ _ _ W) as Hm. pose proof (wf_shr _ _ _ W) as Hsh.
  pose proof (wf_map _ _ _ W') as Hm'.
  destruct (own_maps_spec (d_raw d) h Hm Hsh) as (r1 & h1 & E1 & X1 & _ & _ & L1 & M1 & _ & V1 & S1 & _).
  set (m := mp h (r_maps (d_raw d))) in *. set (mf := mp h (r_maps (d_raw from))).
  assert (Ef : mp h1 (r_maps (d_raw from)) = mf) by (by apply (ext_mp _ _ _ X1)).
  set (h2 := set_mp h1 (r_maps r1) (mf ∪ m)).
  destruct (shr_add_spec (r_shared r1) (names mf) h2) as (sh & h3 & E3 & O3 & _).
  destruct (str_add_spec (r_strs r1) (ostr h3 (r_strs (d_raw from))) h3) as (st & h4 & E4 & O4 & _).
  { rewrite S1. intros l Hl. rewrite (os_str _ _ O3). simpl. apply (wf_str _ _ _ W) in Hl.
    pose proof (prefix_length _ _ (e_str _ _ X1)). lia. }
  assert (Et : transfer_raw (d_raw d) (d_raw from) h =
    Ok (Raw (r_maps r1) sh (r_sharedMaps r1) (r_enc r1) (r_cpu r1) st, h4)).
  { unfold transfer_raw. rewrite (bind_eq _ _ _ _ _ E1). unfold transfer_loops.
    rewrite (bind_eq _ _ h1 mf h1) by (by rewrite <- Ef). rewrite (bind_eq _ _ h1 m h1) by (by rewrite <- M1).
    rewrite (bind_eq _ _ h1 tt h2) by done. rewrite (bind_eq _ _ _ _ _ E3).
    rewrite (bind_eq _ _ h3 (ostr h3 (r_strs (d_raw from))) h3) by done. by rewrite (bind_eq _ _ _ _ _ E4). }
  eexists _, _, h4. split; [|split; [exact Et|]].
  { unfold u_transfer. cbn [fst snd]. rewrite (bind_eq _ _ h m h) by done. by rewrite (bind_eq _ _ _ _ _ Et). }
  intros m0 u0 Hd Hf (k & s & k' & s' & Hk & Hk' & Hs). cbn [r_maps] in Hk.
  assert (Em : mp h4 (r_maps r1) = mf ∪ m).
  { unfold mp at 1. rewrite (ot_map _ _ O4), (os_map _ _ O3). unfold h2. simpl. by rewrite list_lookup_insert. }
  rewrite Em in Hk. apply lookup_union_Some_raw in Hk as [Hk | [_ Hk]].
  - destruct (Hf (ex_intro _ k (ex_intro _ s (ex_intro _ k' (ex_intro _ s' (conj Hk (conj Hk' Hs))))))) as (i & A & B).
    exists i. split; [|done]. case_decide; [done|]. by rewrite N.lor_spec, A, orb_true_r.
  - destruct (Hd (ex_intro _ k (ex_intro _ s (ex_intro _ k' (ex_intro _ s' (conj Hk (conj Hk' Hs))))))) as (i & A & B).
    exists i. split; [|done]. case_decide as Hn; [|by rewrite N.lor_spec, A].
    unfold num_columns in Hn. apply map_size_empty_inv in Hn. by rewrite Hn, lookup_empty in Hk.
Qed.

(** ** Witnesses *)
Section wit.
Existing Instance ex_rt.
Definition run_u {A} (x : A) (m : M (A * N)) (h : heap) : A * N * heap :=
  match m h with Ok p => p | Panic => (x, 0%N, heap0) end.
Definition c100_hv := run_u dummy (u_hash_strings_view (c24_d, 1%N) ["s"] 1) c24_h.
Definition c100_r0 := (run_raw (alloc_cols KFloat (d_raw (view ex_d)) ["x"]) ex_h).1.
Definition c100_h0 := (run_raw (alloc_cols KFloat (d_raw (view ex_d)) ["x"]) ex_h).2.
Definition c100_d : dframe := set_raw ex_d c100_r0.
Definition c100_us := run_u (d_raw dummy) (u_unshare (d_raw c100_d, 1%N) [] 1) c100_h0.
End wit.
Lemma not_overlap12 : ~ overlap 1 2.
Proof. intros (i & A & B). change 1%N with (2 ^ 0)%N in A. change 2%N with (2 ^ 1)%N in B. rewrite N.pow2_bits_eqb in A, B. apply N.eqb_eq in A as <-. done. Qed.
Lemma shares_by h d1 d2 k j a : cell_of h d1 k j = Some a -> cell_of h d2 k j = Some a -> shares h d1 d2.
Proof. intros. by exists k, j, k, j, a. Qed.

Lemma C100_hash_refuted_main : exists (rt : GoRT) (h : heap) (d : dframe) cols rnd v u' h',
  wf h d /\ NoDup cols /\ (forall c, c ∈ cols -> is_Some (t_cols (abs h d) !! (KObj, c)) /\ c ∈ t_strs (abs h d)) /\
  u_hash_strings_view (d, 1%N) cols rnd h = Ok ((v, u'), h') /\ shares h' v d /\ ~ overlap 1 u'.
Proof.
  exists ex_rt, c24_h, c24_d, ["s"], 1%N, c100_hv.1.1, c100_hv.1.2, c100_hv.2.
  split; [apply (wf_check_sound _ _ 2); by vm_compute|]. split; [apply NoDup_singleton|].
  split. { intros c ->%elem_of_list_singleton. split; apply (bool_decide_unpack _); by vm_compute. }
  split; [by vm_compute|]. split.
  - eapply (shares_by _ _ _ (KObj, "s") 0); vm_compute; reflexivity.
  - replace (c100_hv.1.2) with 2%N by (by vm_compute). apply not_overlap12.
Qed.
(** A view gets a column of its own, is viewed in turn, and is then unshared. *)
Lemma C100_unshare_refuted_main : exists (rt : GoRT) (h : heap) (d : dframe) rnd r' u' h',
  wf h d /\ wf h (view d) /\ u_unshare (d_raw d, 1%N) [] rnd h = Ok ((r', u'), h') /\
  shares h' (set_raw d r') (view d) /\ ~ overlap u' 1.
Proof.
  exists ex_rt, c100_h0, c100_d, 1%N, c100_us.1.1, c100_us.1.2, c100_us.2.
  assert (W : wf c100_h0 c100_d) by (apply (wf_check_sound _ _ 4); by vm_compute).
  split; [done|]. split; [by apply wf_view|]. split; [by vm_compute|]. split.
  - eapply (shares_by _ _ _ (KFloat, "x") 0); vm_compute; reflexivity.
  - replace (c100_us.1.2) with 2%N by (by vm_compute). intros (i & A & B). apply not_overlap12. by exists i.
Qed.
Lemma C100_check_main : printable_uid (2 ^ 0 + 2 ^ 11 + 2 ^ 37)%N = "|0|b|11|" /\ printable_uid 0 = "|" /\
  wf ex_h ex_d /\ shares ex_h ex_d ex_d /\ overlap 1 1 /\
  (let '(v, u, h) := run_u dummy (@u_run ex_rt (UDetached ["a"] 5) (ex_d, 1%N)) ex_h in
   u = 33%N /\ cell_of h v (KFloat, "b") 0 = cell_of h ex_d (KFloat, "b") 0 /\ cell_of h v (KInt, "a") 0 <> cell_of h ex_d (KInt, "a") 0).
Proof.
  split; [by vm_compute|]. split; [by vm_compute|]. split; [exact ex_wf|]. split.
  { eapply (shares_by _ _ _ (KFloat, "b") 0); vm_compute; reflexivity. }
  split; [by exists 0%N|]. by vm_compute.
Qed.
Lemma C100_transfer_check_main : wf ex_h ex_d /\
  common (mp ex_h (r_maps (d_raw ex_d))) (mp ex_h (r_maps (d_raw ex_d))) /\
  (let '(r, u, h) := run_u (d_raw dummy) (@u_transfer ex_rt (d_raw ex_d, 1%N) (d_raw ex_d, 4%N)) ex_h in u = 5%N).
Proof.
  split; [exact ex_wf|]. split; [|by vm_compute].
  eexists (KFloat, "b"), _, (KFloat, "b"), _. split; [vm_compute; reflexivity|]. split; [vm_compute; reflexivity|done].
Qed.
