(** Abstraction from the heap to tables, well-formedness, basic lemmas. *)
From Verif Require Export Spec M_Frame.

(** The table a dataframe shows. *)
Definition abs (h : heap) (d : dframe) : table :=
  Table (num_rows d)
        ((fun s => pick (inds d) (sl_vals h s)) <$> mp h (r_maps (d_raw d)))
        (ostr h (r_strs (d_raw d)))
        (r_enc (d_raw d)) (r_cpu (d_raw d)).

(** A column slice that lies within its array, all cells up to the capacity
    having the type of the column. *)
Definition col_ok (h : heap) (k : kind) (s : slice) : Prop :=
  s_len s <= s_cap s /\
  s_off s + s_cap s <= length (arr h (s_arr s)) /\
  Forall (fun v => kind_of v = k) (take (s_cap s) (drop (s_off s) (arr h (s_arr s)))).

(** Well-formed map object: all columns fit and have [n] allocated rows. *)
Definition map_ok (h : heap) (n : nat) (m : gmap key slice) : Prop :=
  map_Forall (fun k s => col_ok h k.1 s /\ s_len s = n) m.

Definition mask_ok (h : heap) (s : slice) : Prop :=
  s_len s <= s_cap s /\ s_off s + s_cap s <= length (marr h (s_arr s)).

(** Well-formed dataframe, [n] being the number of allocated rows. *)
Record wfn (h : heap) (d : dframe) (n : nat) : Prop := {
  wf_map : r_maps (d_raw d) < length (h_map h);
  wf_str : forall l, r_strs (d_raw d) = Some l -> l < length (h_str h);
  wf_shr : forall l, r_shared (d_raw d) = Some l -> l < length (h_shr h);
  wf_cols : map_ok h n (mp h (r_maps (d_raw d)));
  wf_ilen : ilen (d_ind d) <= length (ibuf (d_ind d));
  wf_rng : Forall (fun i => i < n) (inds d);
  wf_cont : d_viewed d = false -> inds d = seq 0 (num_rows d) /\ num_rows d = n;
  wf_mask : mask_ok h (d_mask d);
  wf_mlen : num_rows d <= s_len (d_mask d) }.
Definition wf (h : heap) (d : dframe) : Prop := exists n, wfn h d n.

(** ** pick *)
Global Arguments pick : simpl never.
Section pick.
Context {A : Type}.
Implicit Types (l : list A) (ix : list nat).

Lemma pick_nil l : pick [] l = [].
Proof. done. Qed.
Lemma pick_cons i ix l : pick (i :: ix) l =
  match l !! i with Some a => a :: pick ix l | None => pick ix l end.
Proof. unfold pick. cbn [omap list_omap]. by destruct (l !! i). Qed.
Lemma pick_app ix jx l : pick (ix ++ jx) l = pick ix l ++ pick jx l.
Proof. unfold pick. apply omap_app. Qed.
Lemma pick_length ix l : Forall (fun i => i < length l) ix -> length (pick ix l) = length ix.
Proof.
  induction 1 as [|i ix Hi Hix IH]; [done|].
  rewrite pick_cons. destruct (lookup_lt_is_Some_2 l i Hi) as [a Ha].
  rewrite Ha. simpl. by rewrite IH.
Qed.
Lemma pick_lookup ix l j : Forall (fun i => i < length l) ix ->
  pick ix l !! j = ix !! j ≫= (fun i => l !! i).
Proof.
  intros H. revert j. induction H as [|i ix Hi Hix IH]; intros j; [done|].
  rewrite pick_cons. destruct (lookup_lt_is_Some_2 l i Hi) as [a Ha]. rewrite Ha.
  destruct j as [|j]; simpl; [done|apply IH].
Qed.
Lemma pick_seq_take n l : n <= length l -> pick (seq 0 n) l = take n l.
Proof.
  intros Hn. apply list_eq. intros i.
  rewrite pick_lookup by (apply Forall_forall; intros x Hx%elem_of_seq; lia).
  destruct (decide (i < n)) as [Hi|Hi].
  - rewrite lookup_seq_lt by done. simpl. by rewrite lookup_take.
  - rewrite lookup_seq_ge by lia. rewrite lookup_take_ge by lia. done.
Qed.
Lemma pick_seq_all l : pick (seq 0 (length l)) l = l.
Proof. rewrite pick_seq_take by done. by rewrite take_ge. Qed.
Lemma pick_seq a n l : a + n <= length l -> pick (seq a n) l = take n (drop a l).
Proof.
  intros Hn. apply list_eq. intros i.
  rewrite pick_lookup by (apply Forall_forall; intros x Hx%elem_of_seq; lia).
  destruct (decide (i < n)) as [Hi|Hi].
  - rewrite lookup_seq_lt by done. simpl. by rewrite lookup_take, lookup_drop.
  - rewrite lookup_seq_ge by lia. rewrite lookup_take_ge by lia. done.
Qed.
Lemma pick_reverse ix l : Forall (fun i => i < length l) ix ->
  pick (reverse ix) l = reverse (pick ix l).
Proof.
  induction 1 as [|i ix Hi Hix IH]; [done|].
  rewrite reverse_cons, pick_app, IH, !pick_cons, pick_nil.
  destruct (lookup_lt_is_Some_2 l i Hi) as [a Ha]. rewrite Ha. by rewrite reverse_cons.
Qed.
Lemma pick_perm ix jx l : ix ≡ₚ jx -> pick ix l ≡ₚ pick jx l.
Proof. intros H. unfold pick. by rewrite H. Qed.
Lemma pick_take n ix l : Forall (fun i => i < length l) ix ->
  pick (take n ix) l = take n (pick ix l).
Proof.
  intros H. revert n. induction H as [|i ix Hi Hix IH]; intros [|n]; try done.
  cbn [take]. rewrite !pick_cons, IH. by destruct (lookup_lt_is_Some_2 l i Hi) as [a ->].
Qed.
Lemma pick_drop n ix l : Forall (fun i => i < length l) ix ->
  pick (drop n ix) l = drop n (pick ix l).
Proof.
  intros H. revert n. induction H as [|i ix Hi Hix IH]; intros [|n]; try done.
  cbn [drop]. rewrite pick_cons, IH. by destruct (lookup_lt_is_Some_2 l i Hi) as [a ->].
Qed.
Lemma pick_Forall (P : A -> Prop) ix l : Forall P l -> Forall P (pick ix l).
Proof.
  intros H. induction ix as [|i ix IH]; [constructor|].
  rewrite pick_cons. destruct (l !! i) as [a|] eqn:E; [|done].
  constructor; [exact (Forall_lookup_1 _ _ _ _ H E)|exact IH].
Qed.
End pick.
Lemma pick_fmap {A B} (f : A -> B) (ix : list nat) (l : list A) : pick ix (f <$> l) = f <$> pick ix l.
Proof.
  induction ix as [|i ix IH]; [done|]. rewrite !pick_cons, list_lookup_fmap, IH.
  by destruct (l !! i).
Qed.

Lemma pick_pick {A} (jx ix : list nat) (l : list A) : Forall (fun i => i < length l) ix ->
  pick jx (pick ix l) = pick (pick jx ix) l.
Proof.
  intros H. induction jx as [|j jx IH]; [done|].
  rewrite !pick_cons, (pick_lookup _ _ _ H).
  destruct (ix !! j) as [i|] eqn:E; cbn [mbind option_bind]; [|exact IH].
  rewrite pick_cons. by destruct (l !! i); rewrite IH.
Qed.

Lemma Forall_pick_rng ix l n : Forall (fun i => i < n) l -> Forall (fun i => i < n) (pick ix l).
Proof. apply pick_Forall. Qed.

(** ** heap extension: nothing that existed is visibly changed *)
Record ext (h h' : heap) : Prop := {
  e_arr : h_arr h `prefix_of` h_arr h';
  e_map : h_map h `prefix_of` h_map h';
  e_str : h_str h `prefix_of` h_str h';
  e_shr : length (h_shr h) <= length (h_shr h');
  e_mask : forall l, length (marr h l) <= length (marr h' l) }.

Global Instance ext_refl : Reflexive ext.
Proof. intros h. split; try done. Qed.
Global Instance ext_trans : Transitive ext.
Proof.
  intros h1 h2 h3 H1 H2; split.
  - etrans; [apply H1|apply H2].
  - etrans; [apply H1|apply H2].
  - etrans; [apply H1|apply H2].
  - etrans; [apply H1|apply H2].
  - intros l. etrans; [apply H1|apply H2].
Qed.

Lemma prefix_lookup_default {A} (l l' : list A) (x : A) i :
  l `prefix_of` l' -> i < length l -> default x (l' !! i) = default x (l !! i).
Proof. intros [k ->] Hi. by rewrite lookup_app_l. Qed.

Lemma ext_arr h h' l : ext h h' -> l < length (h_arr h) -> arr h' l = arr h l.
Proof. intros H Hl. apply prefix_lookup_default; [apply H|done]. Qed.
Lemma ext_mp h h' l : ext h h' -> l < length (h_map h) -> mp h' l = mp h l.
Proof. intros H Hl. apply prefix_lookup_default; [apply H|done]. Qed.
Lemma ext_ostr h h' o : ext h h' -> (forall l, o = Some l -> l < length (h_str h)) ->
  ostr h' o = ostr h o.
Proof.
  intros H Hl. destruct o as [l|]; [|done].
  apply prefix_lookup_default; [apply H|by apply Hl].
Qed.

Lemma arr_ge h l : length (h_arr h) <= l -> arr h l = [].
Proof. intros H. unfold arr. by rewrite lookup_ge_None_2. Qed.

Lemma col_ok_arr_cases h k s : col_ok h k s ->
  s_arr s < length (h_arr h) \/ (s_len s = 0 /\ s_cap s = 0 /\ s_off s = 0).
Proof.
  intros (H1 & H2 & _). destruct (decide (s_arr s < length (h_arr h))) as [|Hn]; [by left|right].
  rewrite arr_ge in H2 by lia. simpl in H2. lia.
Qed.

Lemma sl_vals_len0 h s : s_len s = 0 -> sl_vals h s = [].
Proof. intros H. unfold sl_vals. by rewrite H. Qed.

Lemma ext_sl_vals h h' k s : ext h h' -> col_ok h k s -> sl_vals h' s = sl_vals h s.
Proof.
  intros H Hok. destruct (col_ok_arr_cases _ _ _ Hok) as [Hl|(Hl & _)].
  - unfold sl_vals. by rewrite (ext_arr _ _ _ H Hl).
  - by rewrite !sl_vals_len0.
Qed.
Lemma ext_col_ok h h' k s : ext h h' -> col_ok h k s -> col_ok h' k s.
Proof.
  intros H Hok. destruct (col_ok_arr_cases _ _ _ Hok) as [Hl|(Hl & Hc & Ho)].
  - unfold col_ok. by rewrite (ext_arr _ _ _ H Hl).
  - unfold col_ok. rewrite Hl, Hc, Ho. simpl. split; [lia|split; [lia|constructor]].
Qed.
Lemma ext_map_ok h h' n m : ext h h' -> map_ok h n m -> map_ok h' n m.
Proof.
  intros H Hm k s Hk. destruct (Hm k s Hk). split; [by eapply ext_col_ok|done].
Qed.
Lemma ext_mask_ok h h' s : ext h h' -> mask_ok h s -> mask_ok h' s.
Proof.
  intros H [H1 H2]. split; [done|]. etrans; [apply H2|apply H].
Qed.

Lemma ext_wfn h h' d n : ext h h' -> wfn h d n -> wfn h' d n.
Proof.
  intros H W. destruct W. split; try done.
  - pose proof (prefix_length _ _ (e_map _ _ H)). lia.
  - intros l Hl. pose proof (prefix_length _ _ (e_str _ _ H)). specialize (wf_str0 l Hl). lia.
  - intros l Hl. pose proof (e_shr _ _ H). specialize (wf_shr0 l Hl). lia.
  - rewrite (ext_mp _ _ _ H) by done. by eapply ext_map_ok.
  - by eapply ext_mask_ok.
Qed.
Lemma ext_wf h h' d : ext h h' -> wf h d -> wf h' d.
Proof. intros H [n W]. exists n. by eapply ext_wfn. Qed.
Lemma ext_abs h h' d : ext h h' -> wf h d -> abs h' d = abs h d.
Proof.
  intros H [n W]. unfold abs. f_equal.
  - rewrite (ext_mp _ _ _ H) by apply W. apply map_fmap_ext. intros k s Hk.
    destruct (wf_cols _ _ _ W k s Hk) as [Hok _]. by rewrite (ext_sl_vals _ _ _ _ H Hok).
  - apply ext_ostr; [done|]. apply W.
Qed.

Lemma col_ok_vals_length h k s : col_ok h k s -> length (sl_vals h s) = s_len s.
Proof. intros (H1 & H2 & H3). unfold sl_vals. rewrite take_length, drop_length. lia. Qed.
Lemma col_ok_vals_kind h k s : col_ok h k s -> Forall (fun v => kind_of v = k) (sl_vals h s).
Proof.
  intros (H1 & H2 & H3). unfold sl_vals.
  rewrite <- (take_take _ (s_len s) (s_cap s)) in H3 || idtac.
  assert (take (s_len s) (drop (s_off s) (arr h (s_arr s))) =
          take (s_len s) (take (s_cap s) (drop (s_off s) (arr h (s_arr s))))) as ->.
  { rewrite take_take. f_equal. lia. }
  by apply Forall_take.
Qed.

Lemma inds_length d : ilen (d_ind d) <= length (ibuf (d_ind d)) -> length (inds d) = num_rows d.
Proof. intros H. unfold inds, ilist, num_rows. rewrite take_length. lia. Qed.
Lemma wfn_inds_length h d n : wfn h d n -> length (inds d) = num_rows d.
Proof. intros W. apply inds_length, W. Qed.

Lemma wfn_col h d n k s : wfn h d n -> mp h (r_maps (d_raw d)) !! k = Some s ->
  col_ok h k.1 s /\ s_len s = n /\ Forall (fun i => i < length (sl_vals h s)) (inds d).
Proof.
  intros W Hk. destruct (wf_cols _ _ _ W k s Hk) as [Hok Hn].
  split; [done|split; [done|]]. rewrite (col_ok_vals_length _ _ _ Hok), Hn. apply W.
Qed.

Lemma abs_ok h d : wf h d -> t_ok (abs h d).
Proof.
  intros [n W] k col. simpl. rewrite lookup_fmap. intros Hc.
  destruct (mp h _ !! k) as [s|] eqn:E; [|done]. simpl in Hc. injection Hc as <-.
  destruct (wfn_col _ _ _ _ _ W E) as (Hok & Hn & Hr).
  rewrite pick_length by done. split; [by apply (wfn_inds_length _ _ _ W)|].
  apply pick_Forall. by eapply col_ok_vals_kind.
Qed.

(** ** monad inversion *)
Lemma bind_ok {A B} (m : M A) (f : A -> M B) h b h' :
  bind m f h = Ok (b, h') <-> exists a h1, m h = Ok (a, h1) /\ f a h1 = Ok (b, h').
Proof.
  unfold bind. split.
  - destruct (m h) as [[a h1]|]; [eauto|done].
  - by intros (a & h1 & -> & ?).
Qed.
Lemma bind_eq {A B} (m : M A) (f : A -> M B) h a h1 :
  m h = Ok (a, h1) -> bind m f h = f a h1.
Proof. unfold bind. by intros ->. Qed.
Lemma bind_panic {A B} (m : M A) (f : A -> M B) h :
  bind m f h = Panic <-> m h = Panic \/ exists a h1, m h = Ok (a, h1) /\ f a h1 = Panic.
Proof.
  unfold bind. split.
  - destruct (m h) as [[a h1]|]; eauto 6.
  - by intros [-> | (a & h1 & -> & ?)].
Qed.
Lemma ret_ok {A} (a b : A) h h' : ret a h = Ok (b, h') <-> a = b /\ h = h'.
Proof. unfold ret. split; [by intros [= -> ->]|by intros [-> ->]]. Qed.
Lemma lift_ok {A} (r : res A) b h h' : lift r h = Ok (b, h') <-> r = Ok b /\ h = h'.
Proof.
  unfold lift. destruct r; split; try done; try (by intros [= -> ->]).
  - by intros [[= ->] ->].
  - by intros [? ?].
Qed.

(** The public read access coincides with the table. *)
Lemma idx_ok {A} (l : list A) i a : idx l i = Ok a <-> (0 <= i)%Z /\ l !! Z.to_nat i = Some a.
Proof.
  unfold idx. destruct (decide (0 <= i)%Z) as [H|H]; [|split; [done|tauto]].
  destruct (l !! Z.to_nat i); split; try done; try (by intros [= ->]).
  - by intros [_ [= ->]].
  - by intros [_ ?].
Qed.
Lemma idx_panic {A} (l : list A) i : idx l i = Panic <-> (i < 0 \/ Z.of_nat (length l) <= i)%Z.
Proof.
  unfold idx. destruct (decide (0 <= i)%Z) as [H|H].
  - destruct (l !! Z.to_nat i) eqn:E.
    + apply lookup_lt_Some in E. split; [done|lia].
    + apply lookup_ge_None in E. split; [lia|done].
  - split; [lia|done].
Qed.

Lemma get_cell_abs h d k c row v : wf h d ->
  (exists h', get_cell k d c row h = Ok (v, h')) <->
  (0 <= row)%Z /\ exists col, t_cols (abs h d) !! (k, c) = Some col /\
                           col !! Z.to_nat row = Some v.
Proof.
  intros [n W]. unfold get_cell, access, acc_get. split.
  - intros (h' & H).
    apply bind_ok in H as (s & h1 & H1 & H2).
    apply bind_ok in H1 as (m & h2 & [= <- <-] & H3).
    destruct (mp h (r_maps (d_raw d)) !! (k, c)) as [s'|] eqn:E; [|done].
    apply ret_ok in H3 as [-> ->].
    apply bind_ok in H2 as (i & h2 & H2 & H3). apply lift_ok in H2 as [Hi ->].
    apply idx_ok in Hi as [Hr Hi]. split; [done|].
    unfold sl_rd in H3. destruct (sl_vals h2 s !! i) as [v'|] eqn:Ev; [|done].
    injection H3 as -> ->.
    exists (pick (inds d) (sl_vals h' s)). simpl. rewrite lookup_fmap, E. split; [done|].
    destruct (wfn_col _ _ _ _ _ W E) as (Hok & Hn & Hrng).
    rewrite pick_lookup by done. by rewrite Hi.
  - intros (Hr & col & Hc & Hv). exists h. simpl in Hc. rewrite lookup_fmap in Hc.
    destruct (mp h (r_maps (d_raw d)) !! (k, c)) as [s|] eqn:E; [|done].
    simpl in Hc. injection Hc as <-.
    destruct (wfn_col _ _ _ _ _ W E) as (Hok & Hn & Hrng).
    rewrite pick_lookup in Hv by done.
    destruct (inds d !! Z.to_nat row) as [i|] eqn:Ei; [|done]. simpl in Hv.
    unfold bind, get_mp. rewrite E. simpl. unfold idx. rewrite decide_True by done.
    rewrite Ei. simpl. unfold sl_rd. by rewrite Hv.
Qed.

(** Every dataframe that existed keeps showing the same table. *)
Definition preserved (h h' : heap) : Prop :=
  forall d, wf h d -> wf h' d /\ abs h' d = abs h d.
Lemma ext_preserved h h' : ext h h' -> preserved h h'.
Proof. intros H d W. split; [by eapply ext_wf|by apply ext_abs]. Qed.
Lemma preserved_refl h : preserved h h.
Proof. done. Qed.
Lemma preserved_trans h1 h2 h3 : preserved h1 h2 -> preserved h2 h3 -> preserved h1 h3.
Proof. intros H1 H2 d W. destruct (H1 d W) as [W' E]. destruct (H2 d W') as [? E']. by rewrite E'. Qed.
