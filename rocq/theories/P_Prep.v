(** Columns updated in place, read and fitted. *)
From Verif Require Export M_Prep Spec_Prep.
From Verif Require Export P_Cells P_Over.

(** How often the loop over the rows of column [k] of [d] comes across a cell. *)
Definition hits (h : heap) (d : dframe) (k : key) (a : addr) : nat :=
  length (filter (fun x => x = Some a) (cell_of h d k <$> seq 0 (num_rows d))).

Lemma upd_loop (g : val -> val) k s ix : forall h, col_ok h k s -> Forall (fun i => i < s_len s) ix ->
  (forall v, kind_of v = k -> kind_of (g v) = k) ->
  exists h', forM ix (fun i => let* v := sl_rd s i in sl_wr s i (g v)) h = Ok (tt, h') /\ wrt h h' /\
    forall a, cell_val h' a = Nat.iter (length (filter (fun i => sl_addr s i = a) ix)) g <$> cell_val h a.
Proof.
  induction ix as [|i ix IH]; intros h Hok Hix Hg.
  { exists h. split; [done|]. split; [done|]. intros a. simpl. by destruct (cell_val h a). }
  apply Forall_cons in Hix as [Hi Hix].
  destruct (col_ok_cell h k s i Hok Hi) as (v & Hv & Hk & Ha).
  assert (E1 : (let* v := sl_rd s i in sl_wr s i (g v)) h = Ok (tt, upd h (sl_addr s i) (g v))).
  { unfold bind. rewrite sl_rd_cell by done. unfold sl_addr. rewrite Hv. by rewrite sl_wr_cell. }
  cbn [forM]. rewrite (bind_eq _ _ _ _ _ E1). clear E1.
  assert (W1 : wrt h (upd h (sl_addr s i) (g v))).
  { eapply upd_wrt; [exact Hv|]. rewrite Hk. by apply Hg. }
  destruct (IH (upd h (sl_addr s i) (g v))) as (h' & E & W2 & Hc); [by eapply wrt_col_ok|done|done|].
  exists h'. split; [done|]. split; [by etrans|]. intros a. rewrite Hc.
  assert (Hlt : (sl_addr s i).2 < length (arr h (sl_addr s i).1)) by (unfold cell_val in Hv; by apply lookup_lt_Some in Hv).
  rewrite upd_cell_val by done. rewrite filter_cons. destruct (decide (a = sl_addr s i)) as [->|Hne].
  - rewrite (decide_True _ _ (eq_refl (sl_addr s i))). change (cell_val h (sl_addr s i) = Some v) in Hv. rewrite Hv. cbn [fmap option_fmap option_map length].
    by rewrite Nat.iter_succ_r.
  - rewrite decide_False by done. done.
Qed.

Lemma cell_of_rows h d n k s : wfn h d n -> mp h (r_maps (d_raw d)) !! k = Some s ->
  cell_of h d k <$> seq 0 (num_rows d) = (fun i => Some (sl_addr s i)) <$> inds d.
Proof.
  intros W Hs. assert (Hl : length (inds d) = num_rows d).
  { unfold inds, ilist, num_rows. rewrite take_length. pose proof (wf_ilen _ _ _ W). lia. }
  apply list_eq. intros j. rewrite !list_lookup_fmap. destruct (decide (j < num_rows d)) as [Hj|Hj].
  - rewrite lookup_seq_lt by done. simpl. unfold cell_of. rewrite Hs. simpl.
    destruct (lookup_lt_is_Some_2 (inds d) j) as [i Hi]; [lia|]. by rewrite Hi.
  - rewrite lookup_seq_ge by lia. rewrite (lookup_ge_None_2 (inds d)) by lia. done.
Qed.
Lemma filter_none {A} (P : A -> Prop) `{!forall x, Decision (P x)} (l : list A) : Forall (fun x => ~ P x) l -> filter P l = [].
Proof. induction 1 as [|x l Hx Hl IH]; [done|]. by rewrite filter_cons, decide_False. Qed.
Lemma filter_some_len {A} (f : A -> addr) a (l : list A) :
  length (filter (fun x => x = Some a) ((fun i => Some (f i)) <$> l)) = length (filter (fun x => f x = a) l).
Proof.
  induction l as [|x l IH]; [done|]. rewrite fmap_cons, !filter_cons.
  destruct (decide (Some (f x) = Some a)), (decide (f x = a)); simpl; congruence.
Qed.
Lemma hits_inds h d n k s a : wfn h d n -> mp h (r_maps (d_raw d)) !! k = Some s ->
  hits h d k a = length (filter (fun i => sl_addr s i = a) (inds d)).
Proof. intros W Hs. unfold hits. rewrite (cell_of_rows _ _ _ _ _ W Hs). apply filter_some_len. Qed.
Lemma hits_wrt h h' d k a : wrt h h' -> hits h' d k a = hits h d k a.
Proof. intros H. unfold hits. f_equal. f_equal. apply list_fmap_ext. intros _ j _. by rewrite (wrt_cell_of _ _ _ _ _ H). Qed.
Lemma hits_0 h d k a : (forall j, cell_of h d k j <> Some a) -> hits h d k a = 0.
Proof.
  intros H. unfold hits. rewrite filter_none; [done|]. apply Forall_fmap, Forall_forall. intros j _. apply H.
Qed.
Lemma cell_of_lt h d k j a : wf h d -> cell_of h d k j = Some a -> j < num_rows d.
Proof.
  intros [n W] Ha. unfold cell_of in Ha. destruct (_ !! k); [|done]. simpl in Ha.
  destruct (inds d !! j) as [i|] eqn:E; [|done]. apply lookup_lt_Some in E.
  unfold inds, ilist in E. rewrite take_length in E. unfold num_rows. lia.
Qed.
Lemma hits_1 h d k a j : wf h d -> cell_of h d k j = Some a ->
  (forall j', cell_of h d k j' = Some a -> j' = j) -> hits h d k a = 1.
Proof.
  intros W Ha Hu. unfold hits. pose proof (cell_of_lt _ _ _ _ _ W Ha) as Hj.
  replace (num_rows d) with (j + S (num_rows d - S j)) by lia. rewrite seq_app, fmap_app, filter_app. simpl.
  rewrite filter_cons, decide_True by done. rewrite app_length. simpl.
  rewrite !filter_none; [done|..]; apply Forall_fmap, Forall_forall; intros j' [Hj' Hl]%elem_of_seq Hc;
    apply Hu in Hc; lia.
Qed.

Section prep.
Context {rt : GoRT}.

Definition up (f : f64 -> f64) (v : val) : val := VFloat (f (float_of v)).

Lemma update_column_spec f d c h : wf h d ->
  match update_column f d c h with
  | Ok (_, h') => is_Some (t_cols (abs h d) !! (KFloat, c)) /\ wrt h h' /\
      forall a, cell_val h' a = Nat.iter (hits h d (KFloat, c) a) (up f) <$> cell_val h a
  | Panic => t_cols (abs h d) !! (KFloat, c) = None
  end.
Proof.
  intros [n W]. unfold update_column, access. unfold bind at 1 2. unfold get_mp. rewrite abs_cols_lookup.
  destruct (mp h (r_maps (d_raw d)) !! (KFloat, c)) as [s|] eqn:Es; [|done].
  destruct (wfn_col _ _ _ _ _ W Es) as (Hok & Hn & Hr).
  destruct (upd_loop (up f) KFloat s (inds d) h) as (h' & E & Hw & Hc); [done| |done|].
  { eapply Forall_impl; [exact (wf_rng _ _ _ W)|]. intros i Hi. simpl in Hi. lia. }
  change (match (forM (inds d) (fun i => let* v := sl_rd s i in sl_wr s i (up f v))) h with
   | Ok (_, h') => is_Some (Some (pick (inds d) (sl_vals h s))) /\ wrt h h' /\
      forall a, cell_val h' a = Nat.iter (hits h d (KFloat, c) a) (up f) <$> cell_val h a
   | Panic => Some (pick (inds d) (sl_vals h s)) = None end). rewrite E. split; [by eexists|].
  split; [done|]. intros a. rewrite Hc. by rewrite (hits_inds _ _ _ _ _ _ W Es).
Qed.

Definition fold_up (h : heap) (d : dframe) (g : string -> f64 -> f64) (cols : list string) (a : addr) (v : val) : val :=
  foldl (fun v c => Nat.iter (hits h d (KFloat, c) a) (up (g c)) v) v cols.
Lemma update_columns_spec g d cols : forall h, wf h d ->
  match forM cols (fun c => update_column (g c) d c) h with
  | Ok (_, h') => (forall c, c ∈ cols -> is_Some (t_cols (abs h d) !! (KFloat, c))) /\ wrt h h' /\
      forall a, cell_val h' a = fold_up h d g cols a <$> cell_val h a
  | Panic => exists c, c ∈ cols /\ t_cols (abs h d) !! (KFloat, c) = None
  end.
Proof.
  induction cols as [|c cols IH]; intros h W.
  { simpl. split; [by intros c Hc%elem_of_nil|]. split; [done|]. intros a. by destruct (cell_val h a). }
  cbn [forM]. unfold bind at 1. pose proof (update_column_spec (g c) d c h W) as H1.
  destruct (update_column (g c) d c h) as [[[] h1]|].
  2:{ exists c. split; [by apply elem_of_cons; left|done]. }
  destruct H1 as (H1 & W1 & C1). assert (Wf1 : wf h1 d) by (by eapply wrt_wf). specialize (IH h1 Wf1).
  assert (Hs : forall c', is_Some (t_cols (abs h1 d) !! (KFloat, c')) <-> is_Some (t_cols (abs h d) !! (KFloat, c'))).
  { intros c'. rewrite <- !elem_of_dom. destruct (wrt_shape h h1 d W1) as (_ & -> & _). done. }
  destruct (forM cols _ h1) as [[[] h2]|].
  - destruct IH as (H2 & W2 & C2). split; [|split].
    + intros c' [->|Hc']%elem_of_cons; [done|]. by apply Hs, H2.
    + by etrans.
    + intros a. rewrite C2, C1. destruct (cell_val h a) as [v|]; [|done]. simpl. f_equal. unfold fold_up.
      cbn [foldl]. generalize (Nat.iter (hits h d (KFloat, c) a) (up (g c)) v).
      clear -W1. induction cols as [|c' cols IH]; intros w; [done|]. simpl.
      rewrite (hits_wrt _ _ _ _ _ W1). apply IH.
  - destruct IH as (c' & Hc' & Hn). exists c'. split; [by apply elem_of_cons; right|].
    apply eq_None_not_Some. intros Hx. apply Hs in Hx. rewrite Hn in Hx. by destruct Hx.
Qed.
End prep.
