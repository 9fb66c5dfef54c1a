(** Invariants of the goroutines of ToCSVs. *)
From Verif Require Import M_Writers.
From Verif Require Import P_CsvMain P_Csv2 P_CsvW P_CsvW2 P_View2 P_View3 P_Base.

Lemma sum_insert {A} (f : A -> nat) l i x y : l !! i = Some x -> sum_list_with f (<[i := y]> l) + f x = sum_list_with f l + f y.
Proof.
  revert i. induction l as [|a l IH]; intros [|i] H; simplify_eq/=; [lia|]. specialize (IH _ H). lia.
Qed.
Lemma sum_zero {A} (f : A -> nat) l i x : sum_list_with f l = 0 -> l !! i = Some x -> f x = 0.
Proof. revert i. induction l as [|a l IH]; intros [|i] H Hi; simplify_eq/=; [lia|]. apply (IH i); [lia|done]. Qed.
Lemma fill_cells_length `{crt : CsvRT} marker vs col ks : forall i batch batch', fill_cells marker vs col i ks batch = Ok batch' -> length batch' = length batch.
Proof.
  induction ks as [|k ks IH]; intros i batch batch' H; cbn [fill_cells] in H; [by injection H as <-|].
  destruct (vs !! k); [|done]. destruct (batch !! i); [|done]. destruct (render _ _); [|done]. cbn in H. destruct (decide _); [|done].
  apply IH in H. by rewrite insert_length in H.
Qed.
Lemma fill_cols_length `{crt : CsvRT} marker cols ks : forall col batch batch', fill_cols marker cols col ks batch = Ok batch' -> length batch' = length batch.
Proof.
  induction cols as [|vs cols IH]; intros col batch batch' H; cbn [fill_cols] in H; [by injection H as <-|].
  destruct (fill_cells _ _ _ _ _ _) as [b|] eqn:E; [|done]. cbn in H. apply IH in H. rewrite H. by eapply fill_cells_length.
Qed.

Lemma batch_pos : 0 < batch_rows.
Proof. unfold batch_rows. lia. Qed.
Lemma batch_take {A} (k : A) ks : 0 < length (take batch_rows (k :: ks)).
Proof. rewrite take_length. pose proof batch_pos. simpl length. lia. Qed.
Local Opaque batch_rows.

Section inv.
Context {crt : CsvRT}.
Context (order : nat -> nat -> gset string -> list string) (flush : nat -> nat -> bool) (o : wspec) (dfs : list dframe) (n : nat) (h0 : heap).
Context (Ho : ws_order o = true) (Hn : n <= length dfs) (W : Forall (wf h0) dfs).

Definition same_data (h : heap) : Prop := ext h0 h /\ h_arr h = h_arr h0 /\ h_map h = h_map h0.
Definition keys_i (i : nat) (d : dframe) : list key := keys_of (order i) (abs h0 d).
Definition cols_i (i : nat) (d : dframe) : list (list val) := get_col h0 (mp h0 (r_maps (d_raw d))) <$> keys_i i d.
(** What goroutine [i] does when it is alone. *)
Definition alone (i : nat) (d : dframe) : res (list (list string) * bool) :=
  write_batches (num_rows d) (flush i) (ws_marker o) (cols_i i d) 0 (inds d)
    (replicate batch_rows (replicate (length (keys_i i d)) "")) [] [snd <$> keys_i i d].

Lemma sort_same d : sort_if_needed o d = d.
Proof. apply sort_id. by right. Qed.
Lemma cols_same h i d : same_data h -> get_col h (mp h (r_maps (d_raw d))) <$> keys_i i d = cols_i i d.
Proof.
  intros (X & A & Mm). unfold cols_i. assert (mp h (r_maps (d_raw d)) = mp h0 (r_maps (d_raw d))) as -> by (unfold mp; by rewrite Mm).
  apply list_fmap_ext. intros j k _. unfold get_col, sl_vals, arr. by rewrite A.
Qed.
Lemma keys_same h i d : same_data h -> wf h0 d -> exists h', csv_keys (order i) d h = Ok (keys_i i d, h') /\ same_data h'.
Proof.
  intros (X & A & Mm) Wd. destruct (csv_keys_spec (order i) h d (ext_wf _ _ _ X Wd)) as (h' & E & X' & A' & M').
  exists h'. rewrite (ext_abs _ _ _ X Wd) in E. split; [done|]. split; [by eapply ext_trans|]. split; congruence.
Qed.
Lemma alone_spec h i d : same_data h -> wf h0 d -> exists h', same_data h' /\
  to_1csv (order i) (flush i) o d h = match alone i d with Ok r => Ok (r, h') | Panic => Panic end.
Proof.
  intros S Wd. pose proof S as (X & A & Mm). destruct (to_1csv_run (order i) o h d (ext_wf _ _ _ X Wd)) as (h' & X' & A' & M' & E).
  exists h'. split; [split; [by eapply ext_trans|]; split; congruence|]. rewrite (E (flush i)). cbv zeta. rewrite sort_same, (ext_abs _ _ _ X Wd).
  change (keys_of (order i) (abs h0 d)) with (keys_i i d). rewrite (cols_same h i d S). done.
Qed.
(** The execution in which they run one after the other. *)
Lemma write_parts_alone k : forall i h, i + k <= length dfs -> same_data h ->
  match write_parts order flush o i k dfs h with
  | Ok (l, h') => same_data h' /\ length l = k /\ forall j p, l !! j = Some p -> exists d, dfs !! (i + j) = Some d /\ alone (i + j) d = Ok p
  | Panic => exists j d, j < k /\ dfs !! (i + j) = Some d /\ alone (i + j) d = Panic
  end.
Proof.
  induction k as [|k IH]; intros i h Hi S; cbn [write_parts]; [unfold ret; by split_and!|].
  destruct (lookup_lt_is_Some_2 dfs i) as [d Hd]; [lia|]. rewrite Hd.
  assert (Wd : wf h0 d) by (by eapply Forall_lookup_1). destruct (alone_spec h i d S Wd) as (h1 & S1 & E).
  unfold bind at 1. rewrite E. destruct (alone i d) as [r|] eqn:Er.
  2: { exists 0, d. rewrite Nat.add_0_r. split; [lia|done]. }
  specialize (IH (Datatypes.S i) h1 ltac:(lia) S1). unfold bind at 1. destruct (write_parts order flush o (Datatypes.S i) k dfs h1) as [[l h2]|].
  - unfold ret. destruct IH as (S2 & L2 & R2). split; [done|]. split; [simpl; lia|]. intros [|j] p Hj.
    + injection Hj as <-. exists d. by rewrite Nat.add_0_r.
    + rewrite Nat.add_succ_r. by apply (R2 j p).
  - destruct IH as (j & d' & Hj & Hd' & R). exists (Datatypes.S j), d'. rewrite Nat.add_succ_r. split; [lia|done].
Qed.

(** ** The invariant *)
Definition good (i : nat) (g : gor) (d : dframe) (out : list (list string)) (c : nat) (e : bool) : Prop :=
  match g with
  | GStart => out = [] /\ c = 0 /\ e = false
  | GLoop keys ks batch pend => keys = keys_i i d /\ length batch = batch_rows /\ e = false /\ length ks <= num_rows d /\
      exists fuel, length ks <= fuel /\ write_batches fuel (flush i) (ws_marker o) (cols_i i d) c ks batch out pend = alone i d
  | GBack b => alone i d = Ok (out, b) /\ e = false
  | GSet | GDone => alone i d = Ok (out, e)
  | GPanic | GCrash => alone i d = Panic /\ e = false
  end.
Definition over (g : gor) : Prop := g = GDone \/ g = GCrash.
Definition act (g : gor) : nat := match g with GDone | GCrash => 0 | _ => 1 end.
Record inv (s : wr_state) : Prop := Inv {
  i_gors : length (w_gors s) = n;
  i_files : length (w_files s) = n;
  i_errs : length (w_errs s) = n;
  i_heap : same_data (w_heap s);
  i_wait : w_wait s = sum_list_with act (w_gors s);
  i_good : forall i g d out c e, w_gors s !! i = Some g -> dfs !! i = Some d -> w_files s !! i = Some (out, c) -> w_errs s !! i = Some e -> good i g d out c e;
  i_ret : forall e, w_ret s = Some e -> w_wait s = 0 /\ e = existsb (fun e => e) (w_errs s);
  i_dead : w_dead s = true -> exists i d, i < n /\ dfs !! i = Some d /\ alone i d = Panic }.

Lemma sum_replicate {A} (f : A -> nat) k x : sum_list_with f (replicate k x) = k * f x.
Proof. induction k; simpl; lia. Qed.
Lemma inv_init : inv (w_init n n h0).
Proof.
  split; cbn [w_init w_gors w_files w_errs w_heap w_wait w_ret w_dead]; rewrite ?replicate_length; try done.
  - rewrite sum_replicate. simpl. lia.
  - intros i g d out c e [-> _]%lookup_replicate _ [[= -> ->] _]%lookup_replicate [-> _]%lookup_replicate. done.
Qed.

(** One goroutine changes its own entries only. *)
Lemma inv_upd s i g d out c e g' out' c' e' h' : inv s ->
  w_gors s !! i = Some g -> dfs !! i = Some d -> w_files s !! i = Some (out, c) -> w_errs s !! i = Some e ->
  act g = 1 -> (good i g d out c e -> same_data (w_heap s) -> good i g' d out' c' e' /\ same_data h') ->
  inv (WrState (<[i := g']> (w_gors s)) (<[i := (out', c')]> (w_files s)) (<[i := e']> (w_errs s)) (w_wait s - (1 - act g')) (w_ret s) (w_dead s) h').
Proof.
  intros I Hg Hd Hf He Ha H. destruct (H (i_good s I i g d out c e Hg Hd Hf He) (i_heap s I)) as [G S].
  assert (Hw : w_wait s - (1 - act g') = sum_list_with act (<[i:=g']> (w_gors s))).
  { rewrite (i_wait s I). pose proof (sum_insert act _ _ _ g' Hg). assert (act g' <= 1) by (by destruct g'; simpl; lia). lia. }
  split; cbn [w_gors w_files w_errs w_heap w_wait w_ret w_dead]; rewrite ?insert_length; try apply I; try done.
  - intros j gj dj outj cj ej Hgj Hdj Hfj Hej. destruct (decide (i = j)) as [<-|Hne].
    + rewrite list_lookup_insert in Hgj by (by eapply lookup_lt_Some). rewrite list_lookup_insert in Hfj by (by eapply lookup_lt_Some).
      rewrite list_lookup_insert in Hej by (by eapply lookup_lt_Some). assert (dj = d) as -> by congruence. by simplify_eq.
    + rewrite list_lookup_insert_ne in Hgj by done. rewrite list_lookup_insert_ne in Hfj by done. rewrite list_lookup_insert_ne in Hej by done. by eapply (i_good s I).
  - intros x Hx. exfalso. destruct (i_ret s I x Hx) as [H0 _]. rewrite (i_wait s I) in H0. pose proof (sum_zero act _ _ _ H0 Hg). lia.
Qed.

Lemma flush_own i out c recs files : files !! i = Some (out, c) -> recs <> [] ->
  w_flush flush i recs files = if flush i c then (<[i := (out ++ recs, S c)]> files, true) else (<[i := (out, S c)]> files, false).
Proof. intros Hf Hr. unfold w_flush. destruct recs; [done|]. by rewrite Hf. Qed.
Lemma flush_none i files : w_flush flush i [] files = (files, true).
Proof. done. Qed.

Lemma inv_gor i s s' : inv s -> gor_step order flush o dfs (seq 0 n) i s = Some s' -> inv s'.
Proof.
  intros I H. pose proof I as I0. destruct s as [gs files errs wait rt dead h]. unfold gor_step in H.
  destruct (gs !! i) as [g|] eqn:Hg; [|done]. destruct (dfs !! i) as [d|] eqn:Hd; [|done].
  destruct (seq 0 n !! i) as [w|] eqn:Hw; [|done]. apply lookup_seq in Hw as [-> Hi]. rewrite Nat.add_0_l in H.
  destruct (lookup_lt_is_Some_2 files i) as [[out c] Hf]; [pose proof (i_files _ I); simpl in *; lia|].
  destruct (lookup_lt_is_Some_2 errs i) as [e He]; [pose proof (i_errs _ I); simpl in *; lia|].
  assert (Wd : wf h0 d) by (by eapply Forall_lookup_1). rewrite sort_same in H.
  pose proof (inv_upd (WrState gs files errs wait rt dead h) i g d out c e) as U. cbn [w_gors w_files w_errs w_wait w_ret w_dead w_heap] in U.
  assert (Hfs : <[i:=(out, c)]> files = files) by (by apply list_insert_id). assert (Hes : <[i:=e]> errs = errs) by (by apply list_insert_id).
  destruct g as [|keys ks batch pend|b| | | |].
  - destruct (keys_same h i d (i_heap _ I) Wd) as (h' & E & S). rewrite E in H. injection H as <-.
    specialize (U (GLoop (keys_i i d) (inds d) (replicate batch_rows (replicate (length (keys_i i d)) "")) [snd <$> keys_i i d]) out c e h').
    cbn [act] in U. rewrite Nat.sub_diag, Nat.sub_0_r, Hfs, Hes in U. apply U; try done.
    intros (-> & -> & ->) _. split; [|done]. split; [done|]. split; [by rewrite replicate_length|]. split; [done|].
    destruct Wd as [m Wd]. rewrite (wfn_inds_length _ _ _ Wd). split; [done|]. exists (num_rows d). done.
  - destruct (i_good _ I i _ d out c e Hg Hd Hf He) as (-> & Hb & -> & Hks & fuel & Hfu & HR). 
    destruct ks as [|k ks].
    + injection H as <-. assert (HR' : alone i d = Ok (if flush i c then out ++ pend else out, false)) by (rewrite <- HR; by destruct fuel). destruct pend as [|p pend].
      * rewrite flush_none. cbn [fst]. specialize (U (GBack false) out c false h). cbn [act] in U. rewrite Nat.sub_diag, Nat.sub_0_r, Hfs, Hes in U.
        apply U; try done. intros _ S. split; [|done]. split; [|done]. rewrite HR', app_nil_r. by destruct (flush i c).
      * rewrite (flush_own i out c _ files Hf) by done. destruct (flush i c); cbn [fst].
        -- specialize (U (GBack false) (out ++ p :: pend) (S c) false h). cbn [act] in U. rewrite Nat.sub_diag, Nat.sub_0_r, Hes in U. by apply U.
        -- specialize (U (GBack false) out (S c) false h). cbn [act] in U. rewrite Nat.sub_diag, Nat.sub_0_r, Hes in U. by apply U.
    + destruct fuel as [|fuel]; [simpl in Hfu; lia|]. cbn [write_batches] in HR. rewrite (cols_same h i d (i_heap _ I)) in H.
      destruct (fill_cols (ws_marker o) (cols_i i d) 0 (take batch_rows (k :: ks)) batch) as [batch'|] eqn:EF; cbn [res_bind] in HR.
      2: { injection H as <-. destruct pend as [|p pend].
        - rewrite flush_none. cbn [fst]. specialize (U GPanic out c false h). cbn [act] in U. rewrite Nat.sub_diag, Nat.sub_0_r, Hfs, Hes in U. by apply U.
        - rewrite (flush_own i out c _ files Hf) by done. destruct (flush i c); cbn [fst].
          + specialize (U GPanic (out ++ p :: pend) (S c) false h). cbn [act] in U. rewrite Nat.sub_diag, Nat.sub_0_r, Hes in U. by apply U.
          + specialize (U GPanic out (S c) false h). cbn [act] in U. rewrite Nat.sub_diag, Nat.sub_0_r, Hes in U. by apply U. }
      pose proof (fill_cols_length _ _ _ _ _ _ EF) as HL. set (part := take batch_rows (k :: ks)) in *.
      assert (Hne : pend ++ take (length part) batch' <> []).
      { intros [_ Hz]%app_nil. apply (f_equal length) in Hz. rewrite take_length in Hz. change (length (@nil (list string))) with 0 in Hz.
        pose proof (batch_take k ks : 0 < length part). pose proof batch_pos. lia. }
      rewrite (flush_own i out c _ files Hf Hne) in H. destruct (flush i c); cbn [fst snd] in H; injection H as <-.
      * specialize (U (GLoop (keys_i i d) (drop batch_rows (k :: ks)) batch' []) (out ++ pend ++ take (length part) batch') (S c) false h).
        cbn [act] in U. rewrite Nat.sub_diag, Nat.sub_0_r, Hes in U. apply U; try done. intros _ S. split; [|done].
        split; [done|]. split; [lia|]. split; [done|]. rewrite drop_length. split; [lia|]. exists fuel. split; [pose proof batch_pos; simpl length in *; lia|done].
      * specialize (U (GBack true) out (S c) false h). cbn [act] in U. rewrite Nat.sub_diag, Nat.sub_0_r, Hes in U. by apply U.
  - injection H as <-. specialize (U GSet out c b h). cbn [act] in U. rewrite Nat.sub_diag, Nat.sub_0_r, Hfs in U. apply U; try done. by intros [G _] S.
  - injection H as <-. specialize (U GDone out c e h). cbn [act] in U. rewrite Nat.sub_0_r, Hfs, Hes in U. by apply U.
  - done.
  - injection H as <-. specialize (U GCrash out c e h). cbn [act] in U. rewrite Nat.sub_0_r, Hfs, Hes in U. by apply U.
  - injection H as <-. destruct (i_good _ I i _ d out c e Hg Hd Hf He) as [G _]. destruct I. split; try done. intros _. exists i, d. done.
Qed.
Lemma inv_main s s' : inv s -> main_step s = Some s' -> inv s'.
Proof.
  intros I H. destruct s as [gs files errs wait rt dead h]. unfold main_step in H. destruct rt; [done|]. destruct wait; [|done]. injection H as <-.
  destruct I. split; try done. cbn. intros e [= <-]. done.
Qed.
Lemma inv_next s s' : inv s -> w_next order flush o dfs (seq 0 n) s s' -> inv s'.
Proof.
  intros I [who H]. unfold w_step in H. destruct (w_dead s); [done|]. destruct who as [i|]; [by eapply inv_gor|by eapply inv_main].
Qed.
Lemma inv_reach s : rtc (w_next order flush o dfs (seq 0 n)) (w_init n n h0) s -> inv s.
Proof.
  intros H. assert (forall a b, rtc (w_next order flush o dfs (seq 0 n)) a b -> inv a -> inv b) as K.
  { clear -Ho Hn W. intros a b R. induction R; [done|]. intros I. by eapply IHR, inv_next. }
  eapply K; [exact H|apply inv_init].
Qed.

(** ** Progress *)
Lemma gor_moves i s g : inv s -> w_gors s !! i = Some g -> g <> GDone -> is_Some (gor_step order flush o dfs (seq 0 n) i s).
Proof.
  intros I Hg Hne. assert (Hi : i < n) by (apply lookup_lt_Some in Hg; pose proof (i_gors _ I); lia).
  destruct s as [gs files errs wait rt dead h]. simpl in Hg. unfold gor_step. rewrite Hg.
  destruct (lookup_lt_is_Some_2 dfs i) as [d Hd]; [lia|]. rewrite Hd. rewrite lookup_seq_lt by done.
  destruct g as [|keys [|k ks] batch pend|b| | | |]; try done; cbv zeta.
  - by destruct (csv_keys _ _ _) as [[? ?]|].
  - by destruct (fill_cols _ _ _ _ _).
Qed.
Lemma sum_exists {A} (f : A -> nat) l : sum_list_with f l <> 0 -> exists i x, l !! i = Some x /\ f x <> 0.
Proof.
  induction l as [|a l IH]; intros H; [done|]. simpl in H. destruct (decide (f a = 0)) as [E|E].
  - destruct IH as (i & x & Hx & Hf); [lia|]. by exists (S i), x.
  - by exists 0, a.
Qed.
Lemma stuck_over s : inv s -> (forall s', ~ w_next order flush o dfs (seq 0 n) s s') ->
  w_dead s = true \/ (w_dead s = false /\ is_Some (w_ret s) /\ Forall (eq GDone) (w_gors s)).
Proof.
  intros I H. destruct (w_dead s) eqn:Ed; [by left|]. right. split; [done|].
  assert (HG : Forall (eq GDone) (w_gors s)).
  { apply Forall_lookup. intros i g Hg. assert (K : g <> GDone -> False); [|by destruct g; try done; exfalso; apply K]. intros Hne.
    destruct (gor_moves i s g I Hg Hne) as [s' E]. apply (H s'). exists (Some i). unfold w_step. by rewrite Ed. }
  split; [|done]. destruct (w_ret s) as [e|] eqn:Er; [done|]. exfalso.
  assert (Hw : w_wait s = 0).
  { destruct (decide (w_wait s = 0)) as [|Hne]; [done|]. exfalso. rewrite (i_wait _ I) in Hne. apply sum_exists in Hne as (i & x & Hx & Hf).
    rewrite Forall_lookup in HG. rewrite <- (HG i x Hx) in Hf. done. }
  destruct s as [gs files errs wait rt dead h]. simpl in *. subst. eapply H. exists None. done.
Qed.

(** ** Termination *)
Definition rows_max : nat := sum_list_with num_rows dfs.
Definition weight (g : gor) : nat :=
  match g with
  | GStart => rows_max + 5 | GLoop _ ks _ _ => length ks + 4 | GBack _ => 3 | GSet => 2 | GDone => 0 | GPanic => 3 | GCrash => 2
  end.
Definition total (s : wr_state) : nat := sum_list_with weight (w_gors s) + (if w_ret s then 0 else 1) + (if w_dead s then 0 else 1).
Lemma sum_elem {A} (f : A -> nat) l i x : l !! i = Some x -> f x <= sum_list_with f l.
Proof. revert i. induction l as [|a l IH]; intros [|i] H; simplify_eq/=; [lia|]. specialize (IH _ H). lia. Qed.
Lemma next_total s s' : inv s -> w_next order flush o dfs (seq 0 n) s s' -> total s' < total s.
Proof.
  intros I [who H]. unfold w_step in H. destruct (w_dead s) eqn:Ed; [done|]. destruct s as [gs files errs wait rt dead h]. simpl in Ed. subst dead.
  unfold total. destruct who as [i|].
  2: { unfold main_step in H. destruct rt; [done|]. destruct wait; [|done]. injection H as <-. cbn. lia. }
  unfold gor_step in H. destruct (gs !! i) as [g|] eqn:Hg; [|done]. destruct (dfs !! i) as [d|] eqn:Hd; [|done].
  destruct (seq 0 n !! i) as [w|] eqn:Hw; [|done]. rewrite sort_same in H. assert (Wd : wf h0 d) by (by eapply Forall_lookup_1).
  assert (K : forall g', weight g' < weight g -> sum_list_with weight (<[i:=g']> gs) < sum_list_with weight gs).
  { intros g' Hl. pose proof (sum_insert weight gs i g g' Hg). lia. }
  destruct g as [|keys ks batch pend|b| | | |].
  - destruct (keys_same h i d (i_heap _ I) Wd) as (h' & E & S). rewrite E in H. injection H as <-. cbn [w_gors w_ret w_dead].
    assert (Hk : weight (GLoop (keys_i i d) (inds d) (replicate batch_rows (replicate (length (keys_i i d)) "")) [snd <$> keys_i i d]) < weight GStart).
    { cbn [weight]. destruct Wd as [m Wd]. rewrite (wfn_inds_length _ _ _ Wd). pose proof (sum_elem num_rows dfs i d Hd). unfold rows_max. lia. }
    specialize (K _ Hk).
    lia.
  - destruct ks as [|k ks].
    + injection H as <-. cbn [w_gors w_ret w_dead]. specialize (K (GBack false)). cbn [weight length] in K. specialize (K ltac:(lia)). lia.
    + destruct (fill_cols _ _ _ _ _) as [batch'|]; injection H as <-; cbn [w_gors w_ret w_dead].
      * destruct (snd _).
        -- specialize (K (GLoop keys (drop batch_rows (k :: ks)) batch' [])). cbn [weight] in K. rewrite drop_length in K. specialize (K ltac:(pose proof batch_pos; simpl length; lia)). lia.
        -- specialize (K (GBack true)). cbn [weight length] in K. specialize (K ltac:(lia)). lia.
      * specialize (K GPanic). cbn [weight length] in K. specialize (K ltac:(lia)). lia.
  - injection H as <-. cbn [w_gors w_ret w_dead]. specialize (K GSet). cbn [weight] in K. specialize (K ltac:(lia)). lia.
  - injection H as <-. cbn [w_gors w_ret w_dead]. specialize (K GDone). cbn [weight] in K. specialize (K ltac:(lia)). lia.
  - done.
  - injection H as <-. cbn [w_gors w_ret w_dead]. specialize (K GCrash). cbn [weight] in K. specialize (K ltac:(lia)). lia.
  - injection H as <-. cbn [w_gors w_ret w_dead]. lia.
Qed.
Lemma steps_bounded k s : nsteps (w_next order flush o dfs (seq 0 n)) k (w_init n n h0) s -> k <= n * (rows_max + 5) + 2.
Proof.
  assert (forall k a b, nsteps (w_next order flush o dfs (seq 0 n)) k a b -> inv a -> k + total b <= total a) as K.
  { clear -Ho Hn W. intros k a b R. induction R as [|k a b c Hab R IH]; [lia|]. intros I. pose proof (next_total a b I Hab).
    specialize (IH (inv_next _ _ I Hab)). lia. }
  intros H. apply K in H; [|apply inv_init]. unfold total in H at 2. cbn [w_init w_gors w_ret w_dead] in H. rewrite sum_replicate in H. cbn [weight] in H. lia.
Qed.

(** ** The result *)
Lemma inv_result s : inv s ->
  match write_parts order flush o 0 n dfs h0 with
  | Ok (l, _) => w_dead s = false /\ GCrash ∉ w_gors s /\ GPanic ∉ w_gors s /\
      forall e, w_ret s = Some e -> Forall (eq GDone) (w_gors s) /\ (w_files s).*1 = l.*1 /\ e = existsb snd l
  | Panic => forall e, w_ret s = Some e -> GCrash ∈ w_gors s
  end.
Proof.
  intros I. assert (S0 : same_data h0) by (split; [apply ext_refl|done]). pose proof (write_parts_alone n 0 h0 Hn S0) as HW.
  assert (HO : forall e, w_ret s = Some e -> forall i g, w_gors s !! i = Some g -> g = GDone \/ g = GCrash).
  { intros e He i g Hg. destruct (i_ret _ I e He) as [H0 _]. rewrite (i_wait _ I) in H0. pose proof (sum_zero act _ _ _ H0 Hg) as Hz. destruct g; try discriminate Hz; [by left|by right]. }
  assert (HE : forall i g, w_gors s !! i = Some g -> exists d out c e, dfs !! i = Some d /\ w_files s !! i = Some (out, c) /\ w_errs s !! i = Some e /\ good i g d out c e).
  { intros i g Hg. assert (Hi : i < n) by (apply lookup_lt_Some in Hg; pose proof (i_gors _ I); lia).
    destruct (lookup_lt_is_Some_2 dfs i) as [d Hd]; [lia|].
    destruct (lookup_lt_is_Some_2 (w_files s) i) as [[out c] Hf]; [pose proof (i_files _ I); lia|].
    destruct (lookup_lt_is_Some_2 (w_errs s) i) as [e He]; [pose proof (i_errs _ I); lia|].
    exists d, out, c, e. split_and!; try done. by eapply (i_good _ I). }
  destruct (write_parts order flush o 0 n dfs h0) as [[l h1]|].
  - destruct HW as (_ & HL & HR).
    assert (HA : forall i d, i < n -> dfs !! i = Some d -> exists p, l !! i = Some p /\ alone i d = Ok p).
    { intros i d Hi Hd. destruct (lookup_lt_is_Some_2 l i) as [p Hp]; [lia|]. destruct (HR i p Hp) as (d' & Hd' & Ha). simpl in *. exists p. split; [done|]. congruence. }
    assert (HNo : forall g, (forall i d out c e, good i g d out c e -> alone i d = Panic) -> g ∉ w_gors s).
    { intros g Hbad [i Hg]%elem_of_list_lookup. destruct (HE i g Hg) as (d & out & c & e & Hd & Hf & He & G). apply Hbad in G.
      destruct (HA i d) as (p & _ & Ha); [apply lookup_lt_Some in Hg; pose proof (i_gors _ I); lia|done|]. congruence. }
    split; [|split; [|split]].
    + destruct (w_dead s) eqn:Ed; [|done]. destruct (i_dead _ I Ed) as (i & d & Hi & Hd & Hp). destruct (HA i d Hi Hd) as (p & _ & Ha). congruence.
    + apply HNo. by intros ????? [? _].
    + apply HNo. by intros ????? [? _].
    + intros e Hret. assert (HD : Forall (eq GDone) (w_gors s)).
      { apply Forall_lookup. intros i g Hg. destruct (HO e Hret i g Hg) as [-> | ->]; [done|]. exfalso.
        assert (GCrash ∈ w_gors s) as Hc by (by eapply elem_of_list_lookup_2). revert Hc. apply HNo. by intros ????? [? _]. }
      split; [done|]. assert (HF : forall i, i < n -> exists out c p, w_files s !! i = Some (out, c) /\ w_errs s !! i = Some (snd p) /\ l !! i = Some p /\ p.1 = out).
      { intros i Hi. destruct (lookup_lt_is_Some_2 (w_gors s) i) as [g Hg]; [pose proof (i_gors _ I); lia|].
        rewrite Forall_lookup in HD. rewrite <- (HD i g Hg) in Hg. destruct (HE i _ Hg) as (d & out & c & e' & Hd & Hf & He & G). simpl in G.
        destruct (HA i d Hi Hd) as (p & Hp & Ha). exists out, c, p. rewrite Ha in G. injection G as ->. done. }
      split.
      * apply list_eq. intros i. rewrite !list_lookup_fmap. destruct (decide (i < n)) as [Hi|Hi].
        -- destruct (HF i Hi) as (out & c & p & -> & _ & -> & <-). done.
        -- rewrite !lookup_ge_None_2; [done| |]; pose proof (i_files _ I); lia.
      * destruct (i_ret _ I e Hret) as [_ ->]. assert (w_errs s = l.*2) as ->.
        { apply list_eq. intros i. rewrite !list_lookup_fmap. destruct (decide (i < n)) as [Hi|Hi].
          - destruct (HF i Hi) as (out & c & p & _ & -> & -> & _). done.
          - rewrite !lookup_ge_None_2; [done| |]; pose proof (i_errs _ I); lia. }
        clear. induction l as [|p l IH]; [done|]. rewrite fmap_cons. cbn [existsb]. by rewrite IH.
  - destruct HW as (j & d & Hj & Hd & Ha). intros e Hret. simpl in Hd, Ha.
    destruct (lookup_lt_is_Some_2 (w_gors s) j) as [g Hg]; [pose proof (i_gors _ I); lia|].
    destruct (HO e Hret j g Hg) as [-> | ->]; [|by eapply elem_of_list_lookup_2].
    exfalso. destruct (HE j _ Hg) as (d' & out & c & e' & Hd' & Hf & He & G). simpl in G. congruence.
Qed.
Lemma stuck_panic s : inv s -> write_parts order flush o 0 n dfs h0 = Panic -> (forall s', ~ w_next order flush o dfs (seq 0 n) s s') -> w_dead s = true.
Proof.
  intros I E H. destruct (stuck_over s I H) as [|(_ & [e He] & HG)]; [done|]. exfalso. pose proof (inv_result s I) as R. rewrite E in R.
  specialize (R e He). rewrite Forall_forall in HG. specialize (HG _ R). done.
Qed.
Lemma wait_over s : inv s -> w_wait s = 0 -> forall i g, w_gors s !! i = Some g -> g = GDone \/ g = GCrash.
Proof.
  intros I H0 i g Hg. rewrite (i_wait _ I) in H0. pose proof (sum_zero act _ _ _ H0 Hg) as Hz. destruct g; try discriminate Hz; [by left|by right].
Qed.
End inv.
