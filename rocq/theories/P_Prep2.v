(** In-place updates on the level of tables; reading and fitting. *)
From Verif Require Export P_Prep.

(** The columns [cols] share no cell with any other column of the dataframe
    (rows may be repeated). *)
Definition own_cells (h : heap) (d : dframe) (cols : gset string) : Prop :=
  forall c k j1 j2 a, c ∈ cols -> cell_of h d (KFloat, c) j1 = Some a -> cell_of h d k j2 = Some a -> k = (KFloat, c).
Lemma cells_distinct_own h d cols : cells_distinct h d -> own_cells h d cols.
Proof. intros H c k j1 j2 a _ H1 H2. by destruct (H _ _ _ _ _ H1 H2) as [<- _]. Qed.

Lemma fold_up_none h d g cols a v : (forall c j, c ∈ cols -> cell_of h d (KFloat, c) j <> Some a) -> fold_up h d g cols a v = v.
Proof.
  revert v. induction cols as [|c cols IH]; intros v H; [done|]. unfold fold_up. cbn [foldl].
  rewrite hits_0 by (intros j; apply H; by apply elem_of_cons; left). cbn [Nat.iter].
  apply IH. intros c' j Hc. apply H. by apply elem_of_cons; right.
Qed.
Lemma fold_up_one h d g cols a v c : NoDup cols -> c ∈ cols ->
  (forall c' j, c' ∈ cols -> c' <> c -> cell_of h d (KFloat, c') j <> Some a) ->
  fold_up h d g cols a v = Nat.iter (hits h d (KFloat, c) a) (up (g c)) v.
Proof.
  intros Hnd Hc Hu. apply elem_of_list_split in Hc as (l1 & l2 & ->).
  assert (Hn1 : c ∉ l1) by (intros Hx; apply NoDup_app in Hnd as (_ & H & _); apply (H c Hx); by apply elem_of_cons; left).
  assert (Hn2 : c ∉ l2) by (apply NoDup_app in Hnd as (_ & _ & Hnd); by apply NoDup_cons in Hnd as [? _]).
  unfold fold_up. rewrite foldl_app. cbn [foldl].
  change (fold_up h d g l2 a (Nat.iter (hits h d (KFloat, c) a) (up (g c)) (fold_up h d g l1 a v)) = Nat.iter (hits h d (KFloat, c) a) (up (g c)) v).
  rewrite (fold_up_none _ _ _ l1), (fold_up_none _ _ _ l2); [done|..]; intros c' j Hc'; apply Hu; try set_solver.
Qed.

Lemma up_as_float f v : kind_of v = KFloat -> up f v = VFloat (f (the_float v)).
Proof. by destruct v. Qed.
Lemma iter_idem {A} (f : A -> A) n v : (forall x, f (f x) = f x) -> Nat.iter (S n) f v = f v.
Proof. intros H. induction n as [|n IH]; [done|]. change (f (Nat.iter (S n) f v) = f v). by rewrite IH. Qed.

Lemma t_update_cell cols g t k j : t_cell (t_update cols g t) k j =
  if decide (k.1 = KFloat /\ k.2 ∈ cols) then (fun v => VFloat (g k.2 (the_float v))) <$> t_cell t k j else t_cell t k j.
Proof.
  unfold t_cell, t_update. simpl. rewrite map_lookup_imap. destruct (t_cols t !! k) as [col|]; simpl.
  - destruct (decide _); [|done]. unfold on_floats. by rewrite list_lookup_fmap.
  - by destruct (decide _).
Qed.
Lemma t_update_shape cols g t : same_shape t (t_update cols g t).
Proof.
  split; [done|]. split; [|done]. apply set_eq. intros k. rewrite !elem_of_dom. unfold t_update. simpl.
  rewrite map_lookup_imap. destruct (t_cols t !! k); simpl; [split; intros _; by eexists|done].
Qed.
Lemma t_update_ok cols g t : t_ok t -> t_ok (t_update cols g t).
Proof.
  intros H k col. unfold t_update. simpl. rewrite map_lookup_imap. destruct (t_cols t !! k) as [x|] eqn:E; [|done].
  intros [= <-]. destruct (H k x E) as [H1 H2]. destruct (decide _) as [[Hk _]|]; [|done]. unfold on_floats.
  rewrite fmap_length. split; [done|]. apply Forall_fmap, Forall_forall. intros v _. by rewrite Hk.
Qed.

Section prep.
Context {rt : GoRT}.

Lemma updated_abs h h' d g cols : wf h d -> NoDup cols -> own_cells h d (list_to_set cols) ->
  wrt h h' -> (forall a, cell_val h' a = fold_up h d g cols a <$> cell_val h a) ->
  (forall c, c ∈ cols -> NoDup (inds d) \/ forall x, g c (g c x) = g c x) ->
  abs h' d = t_update (list_to_set cols) g (abs h d).
Proof.
  intros W Hnd Hown Hw Hc Hone. assert (W' : wf h' d) by (by eapply wrt_wf).
  apply table_ext.
  - apply t_update_ok. by apply abs_ok.
  - by apply abs_ok.
  - destruct (wrt_shape h h' d Hw) as (A1 & A2 & A3 & A4 & A5).
    destruct (t_update_shape (list_to_set cols) g (abs h d)) as (B1 & B2 & B3 & B4 & B5). unfold same_shape. rewrite A2, B2. done.
  - intros k j. rewrite t_update_cell, !t_cell_abs by done. rewrite (wrt_cell_of _ _ _ _ _ Hw).
    destruct (cell_of h d k j) as [a|] eqn:Ea; simpl; [|by destruct (decide _)]. rewrite Hc.
    destruct (decide (k.1 = KFloat /\ k.2 ∈ (list_to_set cols : gset string))) as [[Hk Hin]|Hk].
    + destruct k as [k c]. simpl in *. subst k. destruct (cell_of_valid _ _ _ _ _ W Ea) as (_ & v & Hv & Hkv). rewrite Hv. simpl. f_equal.
      rewrite <- up_as_float by done. assert (Hin' : c ∈ cols) by set_solver. rewrite (fold_up_one _ _ _ _ _ _ c); [|done|done|].
      * destruct (Hone c Hin') as [Hdi|Hid].
        -- rewrite (hits_1 _ _ _ _ j); [done|done|done|]. intros j' Hj'. unfold cell_of in Ea, Hj'.
           destruct (_ !! (KFloat, c)) as [s|]; [|done]. simpl in *.
           destruct (inds d !! j) as [i|] eqn:Ei; [|done]. destruct (inds d !! j') as [i'|] eqn:Ei'; [|done].
           simpl in *. assert (i = i') as <- by (assert (s_off s + i = s_off s + i') by congruence; lia).
           by eapply NoDup_lookup.
        -- destruct (hits h d (KFloat, c) a) as [|n0] eqn:Eh.
           ++ exfalso. unfold hits in Eh. apply nil_length_inv in Eh.
              assert (Some a ∈ filter (fun x => x = Some a) (cell_of h d (KFloat, c) <$> seq 0 (num_rows d))) as Hx; [|rewrite Eh in Hx; by apply elem_of_nil in Hx].
              apply elem_of_list_filter. split; [done|]. apply elem_of_list_fmap. exists j. split; [done|].
              apply elem_of_seq. pose proof (cell_of_lt _ _ _ _ _ W Ea). lia.
           ++ apply iter_idem. intros x. unfold up. simpl. by rewrite Hid.
      * intros c' j' Hc' Hne Hx. assert ((KFloat, c) = (KFloat, c')) by (eapply (Hown c' (KFloat, c)); [set_solver|exact Hx|exact Ea]). congruence.
    + destruct (cell_of_valid _ _ _ _ _ W Ea) as (_ & v & Hv & Hkv). rewrite Hv. simpl. f_equal. apply fold_up_none.
      intros c j' Hin Hx. assert (k = (KFloat, c)) as -> by (eapply (Hown c k); [set_solver|exact Hx|exact Ea]).
      apply Hk. split; [done|]. simpl. set_solver.
Qed.

(** Reading. *)
Lemma read_floats_spec d c h : wf h d ->
  match read_floats d c h with
  | Ok (vs, h') => h' = h /\ is_Some (t_cols (abs h d) !! (KFloat, c)) /\ vs = t_floats (abs h d) c
  | Panic => t_cols (abs h d) !! (KFloat, c) = None
  end.
Proof.
  intros [n W]. destruct (mp h (r_maps (d_raw d)) !! (KFloat, c)) as [s|] eqn:Es.
  - destruct (gather_col h d n _ s W Es) as [E1 E2].
    assert (E : read_floats d c h = Ok (float_of <$> pick (inds d) (sl_vals h s), h)).
    { unfold read_floats, access, bind, get_mp. rewrite Es. simpl. by rewrite E1. }
    rewrite E, E2. split; [done|]. split; [by eexists|]. unfold t_floats. by rewrite E2.
  - assert (E : read_floats d c h = Panic) by (unfold read_floats, access, bind, get_mp; by rewrite Es).
    rewrite E. by rewrite abs_cols_lookup, Es.
Qed.
Lemma read_all_spec {B} (f : list f64 -> B) d cols : forall h, wf h d ->
  match read_all f d cols h with
  | Ok (l, h') => h' = h /\ (forall c, c ∈ cols -> is_Some (t_cols (abs h d) !! (KFloat, c))) /\
      l = (fun c => (c, f (t_floats (abs h d) c))) <$> cols
  | Panic => exists c, c ∈ cols /\ t_cols (abs h d) !! (KFloat, c) = None
  end.
Proof.
  induction cols as [|c cols IH]; intros h W.
  { simpl. split; [done|]. split; [by intros c Hc%elem_of_nil|done]. }
  cbn [read_all]. unfold bind at 1. pose proof (read_floats_spec d c h W) as H1.
  destruct (read_floats d c h) as [[vs h1]|].
  2:{ exists c. split; [by apply elem_of_cons; left|done]. }
  destruct H1 as (-> & H1 & ->). unfold bind. specialize (IH h W). destruct (read_all f d cols h) as [[l h2]|].
  - destruct IH as (-> & H2 & ->). split; [done|]. split; [|done]. intros c' [->|Hc]%elem_of_cons; [done|by apply H2].
  - destruct IH as (c' & Hc & Hn). exists c'. split; [by apply elem_of_cons; right|done].
Qed.
End prep.

(** The maps made from the results. *)
Lemma collect_fit_app A l p : collect_fit A (l ++ [p]) =
  Scaler (match p.2.1 with Some x => <[p.1 := x]> (sc_shift (collect_fit A l)) | None => sc_shift (collect_fit A l) end)
         (match p.2.2 with Some x => <[p.1 := x]> (sc_scale (collect_fit A l)) | None => sc_scale (collect_fit A l) end).
Proof. unfold collect_fit. by rewrite foldl_app. Qed.
Lemma collect_fit_lookup A l c : NoDup l.*1 ->
  sc_shift (collect_fit A l) !! c = (p ← (list_to_map l : gmap string _) !! c; p.1) /\
  sc_scale (collect_fit A l) !! c = (p ← (list_to_map l : gmap string _) !! c; p.2).
Proof.
  induction l as [|[c' p] l IH] using rev_ind; intros Hnd; [by split|].
  rewrite collect_fit_app. rewrite fmap_app in Hnd. simpl in Hnd.
  assert (Hnd1 : NoDup l.*1) by (by apply NoDup_app in Hnd as (? & _)).
  assert (Hn : c' ∉ l.*1) by (intros Hx; apply NoDup_app in Hnd as (_ & H & _); apply (H c' Hx); by apply elem_of_list_singleton).
  destruct (IH Hnd1) as [IH1 IH2]. assert (HP : l ++ [(c', p)] ≡ₚ (c', p) :: l) by (by rewrite Permutation_app_comm).
  rewrite (list_to_map_proper _ ((c', p) :: l)); [|by rewrite fmap_app|done].
  cbn [list_to_map]. simpl. destruct (decide (c = c')) as [->|Hne].
  - rewrite lookup_insert. simpl. rewrite (not_elem_of_list_to_map_1 l c' Hn) in IH1, IH2.
    destruct p as [[x|] [y|]]; simpl in *; rewrite ?lookup_insert; done.
  - rewrite lookup_insert_ne by done. rewrite <- IH1, <- IH2.
    destruct p as [[x|] [y|]]; simpl; rewrite ?lookup_insert_ne by done; done.
Qed.
Lemma collect_fit_perm A l l' : NoDup l.*1 -> l ≡ₚ l' -> collect_fit A l = collect_fit A l'.
Proof.
  intros Hnd HP. assert (Hnd' : NoDup l'.*1) by (by rewrite <- HP).
  assert (E : forall c, sc_shift (collect_fit A l) !! c = sc_shift (collect_fit A l') !! c /\
                        sc_scale (collect_fit A l) !! c = sc_scale (collect_fit A l') !! c).
  { intros c. destruct (collect_fit_lookup A l c Hnd) as [-> ->], (collect_fit_lookup A l' c Hnd') as [-> ->].
    by rewrite (list_to_map_proper _ _ Hnd HP). }
  destruct (collect_fit A l) as [s1 s2], (collect_fit A l') as [s1' s2']. simpl in E. f_equal; apply map_eq; intros c; apply E.
Qed.
Lemma list_to_map_fmap_lookup {B} (f : string -> B) cols c : 
  (list_to_map ((fun c => (c, f c)) <$> cols) : gmap string B) !! c = if decide (c ∈ cols) then Some (f c) else None.
Proof.
  induction cols as [|c' cols IH]; [done|]. rewrite fmap_cons. cbn [list_to_map]. simpl.
  destruct (decide (c = c')) as [->|Hne].
  - rewrite lookup_insert. by rewrite decide_True by (by apply elem_of_cons; left).
  - rewrite lookup_insert_ne by done. rewrite IH. destruct (decide (c ∈ cols)).
    + by rewrite decide_True by (by apply elem_of_cons; right).
    + rewrite decide_False; [done|]. by intros [?|?]%elem_of_cons.
Qed.
