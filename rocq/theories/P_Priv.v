(** Sequences of structural changes to a view. *)
From Verif Require Export P_Share.

(** Structural changes: Rename, Alloc*, creation by Overwrite*, conversions,
    Unshare. *)
Inductive sop :=
| SRename (old new : string)
| SAlloc (k : kind) (cols : list string)
| SCreate (k : kind) (c : string) (vs : list val)
| SInts (cols : list string)
| SBools (cols : list string)
| SUnshare (cols : list string).

(** When the operation is one covered by the theorem, given the table shown:
    no string column is renamed, no string column is created, converted columns
    exist, allocation happens on a dataframe with columns. *)
Definition sop_ok (t : table) (o : sop) : Prop :=
  match o with
  | SRename old new => old <> new /\ old ∉ t_strs t
  | SAlloc k cols => cols <> [] /\ (t_cols t <> ∅ \/ t_rows t = 0)
  | SCreate k c vs => t_cols t !! (k, c) = None /\ (t_cols t <> ∅ \/ t_rows t = 0) /\
                      Forall (fun v => kind_of v = k) vs
  | SInts cols => NoDup cols /\ (forall c, c ∈ cols -> is_Some (t_cols t !! (KInt, c)))
  | SBools cols => NoDup cols /\ (forall c, c ∈ cols -> is_Some (t_cols t !! (KBool, c)))
  | SUnshare cols => True
  end.

Section frame.
Context {rt : GoRT}.

Definition on_raw (d : dframe) (f : raw -> M raw) : M dframe :=
  let* r := f (d_raw d) in ret (set_raw d r).
Definition run_sop (d : dframe) (o : sop) : M dframe :=
  match o with
  | SRename old new => on_raw d (fun r => rename r old new)
  | SAlloc k cols => on_raw d (fun r => alloc_cols k r cols)
  | SCreate k c vs => overwrite k false d c vs
  | SInts cols => on_raw d (fun r => int_to_floats r cols)
  | SBools cols => on_raw d (fun r => bool_to_floats r cols)
  | SUnshare cols => on_raw d (fun r => unshare r cols)
  end.

(** A run of structural changes, each admissible when it happens. *)
Inductive sruns : heap -> dframe -> list sop -> heap -> dframe -> Prop :=
| sruns_nil h d : sruns h d [] h d
| sruns_cons h d o h1 d1 os h2 d2 :
    sop_ok (abs h d) o -> run_sop d o h = Ok (d1, h1) -> sruns h1 d1 os h2 d2 ->
    sruns h d (o :: os) h2 d2.

(** The map object of [r] is younger than [h0], or about to be replaced. *)
Definition own (h0 : heap) (r : raw) : Prop :=
  r_sharedMaps r = true \/ length (h_map h0) <= r_maps r.

Lemma own_ext h0 h h' r r' : ext h0 h -> own h0 r -> chg (r_maps r') h h' ->
  h_str h `prefix_of` h_str h' ->
  r_maps r' = (if r_sharedMaps r then length (h_map h) else r_maps r) ->
  ext h0 h' /\ own h0 r'.
Proof.
  intros X O C S E. pose proof (prefix_length _ _ (e_map _ _ X)) as Hl.
  assert (L : length (h_map h0) <= r_maps r').
  { rewrite E. destruct O as [-> | O]; [done|]. by destruct (r_sharedMaps r). }
  split; [|by right]. by eapply chg_ext.
Qed.

Lemma on_raw_ok d f h d1 h1 : on_raw d f h = Ok (d1, h1) ->
  exists r', f (d_raw d) h = Ok (r', h1) /\ d1 = set_raw d r'.
Proof.
  unfold on_raw. intros (r' & hh & E1 & E2)%bind_ok. apply ret_ok in E2 as [<- <-]. eauto.
Qed.

(** Old dataframes are unaffected: either the heap is only extended, or, for a
    created column, the writes go to a fresh array. *)
Lemma run_sop_spec h0 h d o d1 h1 : wf h d -> ext h0 h -> own h0 (d_raw d) ->
  sop_ok (abs h d) o -> run_sop d o h = Ok (d1, h1) ->
  wf h1 d1 /\ own h0 (d_raw d1) /\ ext h0 h1.
Proof.
  intros W X O Hok E. destruct o as [old new|k cols|k c vs|cols|cols|cols]; simpl in E.
  - apply on_raw_ok in E as (r' & E & ->). destruct Hok as [Hne Hns].
    pose proof (rename_spec h d old new W Hne) as H. rewrite E in H.
    destruct H as (k & col & _ & W1 & _ & _ & _ & C & S & M & _).
    destruct (own_ext h0 h h1 (d_raw d) r' X O C) as [? ?]; [|done|done].
    apply S. intros [_ ?]. done.
  - apply on_raw_ok in E as (r' & E & ->). destruct Hok as [Hc Hne].
    destruct (alloc_cols_df h d k cols W Hne) as (r2 & h2 & E2 & W2 & _).
    rewrite E in E2. injection E2 as <- <-. pose proof W as [n Wn].
    destruct (alloc_cols_spec k (d_raw d) cols h) as
      (r2 & h2 & E2 & A1 & A2 & A3 & A4 & A5 & A6 & A7 & A8 & A9 & A9b & A10 & A11);
      [apply Wn|intros l Hl; by apply (wf_shr _ _ _ Wn)|].
    rewrite E in E2. injection E2 as <- <-.
    destruct (own_ext h0 h h1 (d_raw d) r' X O A7 A6) as [? ?]; [|done].
    destruct (r_sharedMaps (d_raw d)); [by apply A8|by rewrite A9].
  - destruct Hok as (Hn & Hne & Hv).
    assert (Hn' : mp h (r_maps (d_raw d)) !! (k, c) = None).
    { rewrite abs_cols_lookup in Hn. by destruct (_ !! (k, c)). }
    pose proof (overwrite_create h d k false c vs W Hne) as H.
    rewrite E in H. destruct H as (_ & W1 & _); [done|done|by left|].
    unfold overwrite in E. apply bind_ok in E as (m & hh & Em & E). injection Em as <- <-.
    rewrite Hn' in E. simpl in E. apply bind_ok in E as (r1 & h2 & E1 & E).
    pose proof W as [n Wn].
    destruct (alloc_cols_spec k (d_raw d) [c] h) as
      (r2 & h3 & E2 & A1 & A2 & A3 & A4 & A5 & A6 & A7 & A8 & A9 & A9b & A10 & A11);
      [apply Wn|intros l Hl; by apply (wf_shr _ _ _ Wn)|].
    rewrite E1 in E2. injection E2 as <- <-.
    apply bind_ok in E as (m & hh & Em & E). injection Em as <- <-.
    destruct (A11 c) as (s & S1 & S2); [set_solver|]. rewrite S1 in E. simpl in E.
    apply bind_ok in E as ([] & h4 & E3 & E4). apply ret_ok in E4 as [<- <-].
    destruct (own_ext h0 h h2 (d_raw d) r1 X O A7 A6) as [X2 O2].
    { destruct (r_sharedMaps (d_raw d)); [by apply A8|by rewrite A9]. }
    split; [done|]. split; [done|].
    destruct (alloc_cols_df h d k [c] W Hne) as (r2 & h3 & E5 & [n2 W2] & _).
    rewrite E1 in E5. injection E5 as <- <-.
    pose proof (write_column_spec h2 (set_raw d r1) n2 k c s vs W2 S1 Hv) as Hw.
    change (inds (set_raw d r1)) with (inds d) in Hw. rewrite E3 in Hw.
    destruct Hw as (_ & Hw & Hcell & _).
    (* writing the fresh array *)
    pose proof (prefix_length _ _ (e_arr _ _ X)) as La.
    destruct X2 as [Y1 Y2 Y3 Y4 Y5]. destruct Hw as [Z1 Z2 Z3 Z4 Z5 Z6].
    split; rewrite ?Z2, ?Z3, ?Z4; try done.
    + destruct Y1 as [tl Y1]. exists (drop (length (h_arr h0)) (h_arr h4)).
      rewrite <- (take_drop (length (h_arr h0)) (h_arr h4)) at 1. f_equal.
      apply list_eq. intros i. destruct (decide (i < length (h_arr h0))) as [Hi|Hi].
      * rewrite lookup_take by done.
        assert (Hi2 : i < length (h_arr h2)) by (rewrite Y1, app_length; lia).
        assert (Hi4 : i < length (h_arr h4)) by lia.
        destruct (lookup_lt_is_Some_2 _ _ Hi4) as [x Ex].
        destruct (lookup_lt_is_Some_2 _ _ Hi2) as [y Ey].
        assert (arr h4 i = arr h2 i) as Ea.
        { apply list_eq. intros j. apply (Hcell (i, j)). intros j' Hc'. unfold cell_of in Hc'.
          simpl in Hc'. rewrite S1 in Hc'. simpl in Hc'.
          destruct (inds (set_raw d r1) !! j'); [|done]. injection Hc'. intros _ Hc2.
          destruct S2 as [S2 _]. lia. }
        unfold arr in Ea. rewrite Ex, Ey in Ea. simpl in Ea. subst y. rewrite Ex.
        rewrite Y1, lookup_app_l in Ey by done. done.
      * rewrite lookup_take_ge by lia. symmetry. apply lookup_ge_None_2. lia.
    + intros i. unfold marr. rewrite Z1. apply Y5.
  - apply on_raw_ok in E as (r' & E & ->). destruct Hok as [H1 H2].
    destruct (int_to_floats_spec h d cols W H1 H2) as (r2 & h2 & E2 & W2 & _ & _ & _ & C & S & M & _).
    rewrite E in E2. injection E2 as <- <-.
    destruct (own_ext h0 h h1 (d_raw d) r' X O C S M) as [? ?]. done.
  - apply on_raw_ok in E as (r' & E & ->). destruct Hok as [H1 H2].
    destruct (bool_to_floats_spec h d cols W H1 H2) as (r2 & h2 & E2 & W2 & _ & _ & _ & C & S & M & _).
    rewrite E in E2. injection E2 as <- <-.
    destruct (own_ext h0 h h1 (d_raw d) r' X O C S M) as [? ?]. done.
  - apply on_raw_ok in E as (r' & E & ->). pose proof W as [n Wn].
    destruct (unshare_df h d cols W) as (r2 & h2 & E2 & _ & W2 & _).
    rewrite E in E2. injection E2 as <- <-.
    destruct (unshare_spec h (d_raw d) cols n) as
      (r2 & h2 & E2 & A1 & A2 & A3 & A4 & A5 & A6 & P & C & A7 & A8 & A9 & _);
      [apply Wn|exact (wf_shr _ _ _ Wn)|apply Wn|].
    rewrite E in E2. injection E2 as <- <-.
    destruct (own_ext h0 h h1 (d_raw d) r' X O C A7) as [? ?]; [|done].
    destruct (r_sharedMaps (d_raw d)); [by apply A8|by rewrite A9].
Qed.

Lemma sruns_spec h0 h d os h' d' : sruns h d os h' d' -> wf h d -> ext h0 h -> own h0 (d_raw d) ->
  wf h' d' /\ ext h0 h'.
Proof.
  induction 1 as [|h d o h1 d1 os h2 d2 Hok E R IH]; intros W X O; [done|].
  destruct (run_sop_spec h0 h d o d1 h1 W X O Hok E) as (W1 & O1 & X1). by apply IH.
Qed.
End frame.
