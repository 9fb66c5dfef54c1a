(** C104: what the view-returning functions allocate. *)
From Verif Require Export P_ReadMain.
From Verif Require Import P_Exec.
From stdpp Require Import strings list.
From Verif Require Import Spec_NoCopy P_Base P_Check.

(** The cells stay as they are, and every map holds old slices or parts of them. *)
Record nocopy (h h' : heap) : Prop := {
  nc_arr : h_arr h' = h_arr h;
  nc_map : forall l k s, mp h' l !! k = Some s -> exists l0 s0, mp h l0 !! k = Some s0 /\ s_arr s = s_arr s0 }.
Lemma nocopy_refl h : nocopy h h.
Proof. split; [done|]. intros l k s H. by exists l, s. Qed.
Lemma nocopy_trans h1 h2 h3 : nocopy h1 h2 -> nocopy h2 h3 -> nocopy h1 h3.
Proof.
  intros [A1 M1] [A2 M2]. split; [congruence|]. intros l k s H.
  destruct (M2 _ _ _ H) as (l0 & s0 & H0 & ->). destruct (M1 _ _ _ H0) as (l1 & s1 & H1 & ->). by exists l1, s1.
Qed.
(** Changes to masks and headers only. *)
Lemma nocopy_same h h' : h_arr h' = h_arr h -> h_map h' = h_map h -> nocopy h h'.
Proof. intros A E. split; [done|]. intros l k s. unfold mp. rewrite E. intros H. by exists l, s. Qed.

Definition keeps {A} (m : M A) : Prop := forall h a h', m h = Ok (a, h') -> nocopy h h'.
Lemma keeps_ret {A} (a : A) : keeps (ret a).
Proof. intros h a' h' [= _ <-]. apply nocopy_refl. Qed.
Lemma keeps_panic {A} : keeps (@panic A).
Proof. by intros h a' h'. Qed.
Lemma keeps_lift {A} (r : res A) : keeps (lift r).
Proof. intros h a' h'. unfold lift. destruct r; [intros [= _ <-]; apply nocopy_refl|done]. Qed.
Lemma keeps_bind {A B} (m : M A) (f : A -> M B) : keeps m -> (forall a, keeps (f a)) -> keeps (bind m f).
Proof.
  intros Hm Hf h b h' (a & h1 & E1 & E2)%bind_ok. eapply nocopy_trans; [by apply (Hm _ _ _ E1)|by apply (Hf _ _ _ _ E2)].
Qed.
Lemma keeps_read {A} (f : heap -> A) : keeps (fun h => Ok (f h, h)).
Proof. intros h a h' [= _ <-]. apply nocopy_refl. Qed.
Lemma keeps_get_mp l : keeps (get_mp l). Proof. apply (keeps_read (fun h => mp h l)). Qed.
Lemma keeps_get_ostr o : keeps (get_ostr o). Proof. apply (keeps_read (fun h => ostr h o)). Qed.
Lemma keeps_new_marr a : keeps (new_marr a).
Proof. intros h x h' [= _ <-]. by apply nocopy_same. Qed.
Lemma keeps_make_mask n : keeps (make_mask n).
Proof. apply keeps_bind; [apply keeps_new_marr|intros; apply keeps_ret]. Qed.
Lemma keeps_str_add o xs : keeps (str_add o xs).
Proof.
  unfold str_add. case_decide; [apply keeps_ret|]. destruct o as [l|].
  - intros h a h' [= _ <-]. by apply nocopy_same.
  - apply keeps_bind; [|intros; apply keeps_ret]. intros h a h' [= _ <-]. by apply nocopy_same.
Qed.
Lemma keeps_shr_add o xs : keeps (shr_add o xs).
Proof.
  unfold shr_add. case_decide; [apply keeps_ret|]. destruct o as [l|].
  - intros h a h' [= _ <-]. by apply nocopy_same.
  - apply keeps_bind; [|intros; apply keeps_ret]. intros h a h' [= _ <-]. by apply nocopy_same.
Qed.
Lemma mp_new h m l : mp (Heap (h_arr h) (h_mask h) (h_map h ++ [m]) (h_str h) (h_shr h)) l = mp h l \/
  mp (Heap (h_arr h) (h_mask h) (h_map h ++ [m]) (h_str h) (h_shr h)) l = m.
Proof.
  unfold mp. simpl. destruct (decide (l < length (h_map h))) as [Hl|Hl].
  - left. by rewrite lookup_app_l.
  - destruct (decide (l = length (h_map h))) as [->|Hn].
    + right. by rewrite lookup_app_r, Nat.sub_diag.
    + left. rewrite !lookup_ge_None_2; [done|lia|rewrite app_length; simpl; lia].
Qed.
Lemma keeps_new_mp : keeps (new_mp ∅).
Proof.
  intros h a h' [= _ <-]. split; [done|]. intros l k s. destruct (mp_new h ∅ l) as [-> | ->]; [|by rewrite lookup_empty].
  intros H. by exists l, s.
Qed.
(** Storing a map whose slices are there already. *)
Lemma put_keeps l m h a h' : put_mp l m h = Ok (a, h') ->
  (forall k s, m !! k = Some s -> exists l0 s0, mp h l0 !! k = Some s0 /\ s_arr s = s_arr s0) -> nocopy h h'.
Proof.
  intros [= _ <-] Hm. split; [done|]. intros l' k s. unfold mp, set_mp. simpl.
  destruct (decide (l' = l)) as [->|Hn]; [|rewrite list_lookup_insert_ne by done; intros H; by exists l', s].
  destruct (decide (l < length (h_map h))) as [Hl|Hl].
  - rewrite list_lookup_insert by done. simpl. apply Hm.
  - rewrite list_insert_ge by lia. intros H. by exists l, s.
Qed.

Ltac kp := repeat first [apply keeps_ret | apply keeps_panic | apply keeps_lift | apply keeps_get_mp | apply keeps_get_ostr
  | apply keeps_make_mask | apply keeps_str_add | apply keeps_shr_add | apply keeps_new_mp | apply keeps_new_marr
  | match goal with |- keeps (bind _ _) => apply keeps_bind; [|intros ?] end | match goal with |- keeps (fun _ => Ok _) => apply keeps_read end | case_decide | progress cbv zeta].

Section frame.
Context {rt : GoRT}.
Lemma keeps_transfer_loops x y : keeps (transfer_loops x y).
Proof.
  unfold transfer_loops. intros h a h' (mf & h1 & [= <- <-] & H)%bind_ok. apply bind_ok in H as (md & h2 & [= <- <-] & H).
  apply bind_ok in H as (u & h3 & E & H). eapply nocopy_trans.
  - eapply (put_keeps _ _ _ _ _ E). intros k s [H1|[_ H1]]%lookup_union_Some_raw; by eexists _, _.
  - revert H. clear. revert h3 a h'. change (keeps (let* sh := shr_add (r_shared x) (names (mp h (r_maps y))) in
      let* xs := get_ostr (r_strs y) in let* st := str_add (r_strs x) xs in
      ret (Raw (r_maps x) sh (r_sharedMaps x) (r_enc x) (r_cpu x) st))). kp.
Qed.
Lemma keeps_own_maps r : keeps (own_maps r).
Proof. unfold own_maps, reallocate_maps, new_raw. destruct (r_sharedMaps r); kp. apply keeps_transfer_loops. Qed.
Lemma keeps_transfer_raw x y : keeps (transfer_raw x y).
Proof. unfold transfer_raw. kp; [apply keeps_own_maps|apply keeps_transfer_loops]. Qed.
Lemma keeps_empty_df n c : keeps (empty_df n c).
Proof. unfold empty_df. kp. Qed.
Lemma keeps_shallow d : keeps (shallow_copy d).
Proof. unfold shallow_copy. kp; [apply keeps_empty_df|apply keeps_transfer_raw]. Qed.
Lemma keeps_mask_append s n : keeps (mask_append s n).
Proof.
  intros h a h'. unfold mask_append. cbv zeta. case_decide.
  - intros [= _ <-]. by apply nocopy_same.
  - intros H1. revert H1. apply (keeps_bind (new_marr _) _); [apply keeps_new_marr|intros; apply keeps_ret].
Qed.
Lemma keeps_index d l : keeps (index_view d l).
Proof. unfold index_view. kp. apply keeps_mask_append. Qed.
Lemma keeps_cut d a b : keeps (cut d a b).
Proof.
  unfold cut. apply keeps_bind; [kp|intros m]. cbv zeta. destruct (_ || _); [kp|].
  apply keeps_bind; [apply keeps_own_maps|intros r]. apply keeps_bind; [kp|intros x].
  intros h v h' (m' & h1 & [= <- <-] & H)%bind_ok. case_decide; [|done].
  apply bind_ok in H as (u & h3 & E & H). eapply nocopy_trans.
  - eapply (put_keeps _ _ _ _ _ E). intros k s. rewrite lookup_fmap. intros (s0 & Hs & ->)%fmap_Some. by eexists _, s0.
  - revert H. apply keeps_bind; [kp|intros ?; kp].
Qed.
Lemma keeps_slice d a b : keeps (slice_view d a b).
Proof. unfold slice_view. cbv zeta. case_decide; case_decide; case_decide; apply keeps_cut. Qed.
Lemma keeps_mask d m : keeps (mask_view d m).
Proof. unfold mask_view. kp. Qed.
Lemma keeps_columns d cs : keeps (column_view d cs).
Proof.
  unfold column_view. case_decide; [kp|]. cbv zeta. do 3 (apply keeps_bind; [kp|intros ?]).
  intros h v h' (m' & h1 & [= <- <-] & H1)%bind_ok. apply bind_ok in H1 as (u & h3 & E & H1). eapply nocopy_trans.
  - eapply (put_keeps _ _ _ _ _ E). intros k s [H2 _]%map_filter_lookup_Some. by eexists _, s.
  - revert H1. apply keeps_bind; [kp|intros ?; kp].
Qed.
Lemma keeps_rd s i : keeps (sl_rd s i).
Proof. intros h v h'. unfold sl_rd. destruct (sl_vals h s !! i); [intros [= _ <-]; apply nocopy_refl|done]. Qed.
Lemma keeps_gather s l : keeps (gather s l).
Proof.
  induction l as [|i l IH]; cbn [gather]; [kp|]. apply keeps_bind; [apply keeps_rd|intros ?; kp; exact IH].
Qed.
Lemma keeps_sorted f d c : keeps (sorted_view f d c).
Proof.
  unfold sorted_view. apply keeps_bind; [kp|intros m]. destruct (m !! (KBool, c)).
  - apply keeps_bind; [apply keeps_gather|intros vs]. apply keeps_index.
  - apply keeps_bind; [|intros vs; apply keeps_index]. destruct (m !! (KFloat, c)); [apply keeps_gather|].
    destruct (m !! (KInt, c)); [apply keeps_gather|kp].
Qed.
Lemma keeps_top f d c n a s : keeps (top_view f d c n a s).
Proof.
  unfold top_view. cbv zeta. destruct (top_view_self _ _ _); [kp|]. destruct (decide (_ < 0)%Z); [kp|].
  apply keeps_bind; [apply keeps_sorted|intros v]. destruct a; kp.
Qed.
Lemma keeps_split_loop d n : forall i b, keeps (split_loop d n i b).
Proof.
  induction n as [|n IH]; intros i b; cbn [split_loop]; [kp|]. destruct n.
  - apply keeps_bind; [apply keeps_cut|intros; kp].
  - apply keeps_bind; [apply keeps_cut|intros; kp]. apply IH.
Qed.
Lemma keeps_split d b : keeps (split_view d b).
Proof. unfold split_view. case_decide; [kp|]. cbv zeta. destruct (decide (_ <= 1)%Z); [kp|apply keeps_split_loop]. Qed.
Lemma keeps_concat_loop l : forall r, keeps (concat_view_loop r l).
Proof.
  induction l as [|d l IH]; intros r; cbn [concat_view_loop]; [kp|].
  intros h a h' (mf & h1 & [= <- <-] & H)%bind_ok. apply bind_ok in H as (md & h2 & [= <- <-] & H).
  apply bind_ok in H as (u & h3 & E & H). eapply nocopy_trans.
  - eapply (put_keeps _ _ _ _ _ E). intros k s [H1|[_ H1]]%lookup_union_Some_raw; by eexists _, _.
  - revert H. apply keeps_bind; [kp|intros sh]. apply keeps_bind; [kp|intros xs]. apply keeps_bind; [destruct (r_strs r); kp|intros _]. apply IH.
Qed.
Lemma keeps_view d c : keeps (run_view d c).
Proof.
  destruct c; cbn [run_view]; unfold one; try (apply keeps_bind; [|intros; kp]); try apply keeps_ret.
  - apply keeps_index.
  - apply keeps_slice.
  - apply keeps_mask.
  - apply keeps_columns.
  - apply keeps_index.
  - unfold sample_view. destruct replacement; [kp|]. destruct (decide _); [kp|]. apply keeps_bind; [apply keeps_index|intros; kp].
  - unfold split_n_view. do 3 (destruct (decide _); [kp|]). cbv zeta. apply keeps_bind; [apply keeps_split|intros r].
    destruct (decide (0 < _)%Z); [|kp]. kp; apply keeps_empty_df.
  - apply keeps_split.
  - unfold split_train_test. destruct (_ || _); [kp|]. cbv zeta. apply keeps_bind; [apply keeps_slice|intros ?].
    apply keeps_bind; [apply keeps_slice|intros; kp].
  - apply keeps_sorted.
  - apply keeps_top.
  - apply keeps_shallow.
  - unfold column_concat_view. apply keeps_bind; [kp|intros ms]. destruct (negb _); [kp|]. cbv zeta. destruct (_ && _); [kp|].
    apply keeps_bind; [apply keeps_shallow|intros v]. kp. apply keeps_concat_loop.
Qed.
Lemma C104_views_main d c h vs h' : run_view d c h = Ok (vs, h') ->
  h_arr h' = h_arr h /\ forall v, v ∈ vs -> old_storage h h' v.
Proof. intros [A M1]%keeps_view. split; [done|]. intros v _ k s. apply M1. Qed.

(** ** Counting cells *)
Definition cells {A} (m : M A) (n : nat) : Prop := forall h a h', m h = Ok (a, h') -> total_cells h' = total_cells h + n.
Lemma keeps_cells {A} (m : M A) : keeps m -> cells m 0.
Proof. intros H h a h' [E _]%H. unfold total_cells. rewrite E. lia. Qed.
Lemma cells_bind {A B} (m : M A) (f : A -> M B) n n' : cells m n -> (forall a, cells (f a) n') -> cells (bind m f) (n + n').
Proof. intros Hm Hf h b h' (a & h1 & E1 & E2)%bind_ok. rewrite (Hf _ _ _ _ E2), (Hm _ _ _ E1). lia. Qed.
Lemma cells_forM {A} (l : list A) (f : A -> M unit) n : (forall a, cells (f a) n) -> cells (forM l f) (length l * n).
Proof. intros Hf. induction l as [|a l IH]; [apply keeps_cells; kp|]. cbn [forM]. apply (cells_bind (f a) (fun _ => forM l f)); [apply Hf|intros; apply IH]. Qed.
Lemma total_app h a : total_cells (Heap (h_arr h ++ [a]) (h_mask h) (h_map h) (h_str h) (h_shr h)) = total_cells h + length a.
Proof. unfold total_cells. simpl. rewrite fmap_app, sum_list_with_app. simpl. lia. Qed.
Lemma cells_new_arr a : cells (new_arr a) (length a).
Proof. intros h x h' [= _ <-]. apply total_app. Qed.
Lemma cells_put_mp l m : cells (put_mp l m) 0.
Proof. intros h a h' [= _ <-]. unfold total_cells. simpl. lia. Qed.
Lemma cells_put_col l k s : cells (put_col l k s) 0.
Proof. apply (cells_bind _ _ 0 0); [apply keeps_cells; kp|intros; apply cells_put_mp]. Qed.
Lemma cells_make k n : cells (make_slice k n) n.
Proof.
  intros h a h' H. rewrite <- (Nat.add_0_r n). revert h a h' H. apply cells_bind; [|intros; apply keeps_cells; kp].
  intros h a h' E. rewrite (cells_new_arr _ _ _ _ E). by rewrite replicate_length.
Qed.
Lemma cells_wr s i v : cells (sl_wr s i v) 0.
Proof.
  intros h a h'. unfold sl_wr. case_decide; [|done]. intros [= _ <-]. unfold total_cells, set_arr. simpl. rewrite Nat.add_0_r. f_equal.
  rewrite list_fmap_insert, insert_length. unfold arr. destruct (h_arr h !! s_arr s) as [x|] eqn:E.
  - simpl. apply list_insert_id. by rewrite list_lookup_fmap, E.
  - apply list_insert_ge. rewrite fmap_length. by apply lookup_ge_None.
Qed.
Lemma C104_hash_main d cols h v h' : cols <> [] -> hash_strings_view d cols h = Ok (v, h') ->
  total_cells h' = total_cells h + length cols * num_alloc_rows (mp h (r_maps (d_raw d))).
Proof.
  intros Hc. unfold hash_strings_view. rewrite decide_False by done. intros (m & h1 & [= <- <-] & H)%bind_ok. cbv zeta in H.
  revert H. generalize (num_alloc_rows (mp h (r_maps (d_raw d)))) as n. intros n H.
  apply bind_ok in H as (r & h2 & E2 & H). rewrite <- (Nat.add_0_r (total_cells h)), <- (keeps_cells _ (keeps_columns _ _) _ _ _ E2).
  apply bind_ok in H as (u & h3 & E3 & H). rewrite <- (cells_forM cols _ n) with (2 := E3).
  2: { intros c. rewrite <- (Nat.add_0_r n) at 2. apply cells_bind; [apply cells_make|intros; apply cells_put_col]. }
  apply bind_ok in H as (u' & h4 & E4 & [= _ <-]). apply (cells_forM cols _ 0) in E4; [lia|].
  intros c. apply (cells_bind _ _ 0 0); [apply keeps_cells; kp|intros mi]. apply (cells_bind _ _ 0 0); [apply keeps_cells; kp|intros mo].
  cbv zeta. intros hh a hh' E. apply (cells_forM (inds d) _ 0) in E; [lia|]. intros i. apply (cells_bind _ _ 0 0); [|intros; apply cells_wr].
  apply keeps_cells, keeps_rd.
Qed.

(** Columns that fit into their arrays keep their length while arrays are added. *)
Lemma fits_vals h h' s : h_arr h `prefix_of` h_arr h' -> s_off s + s_len s <= length (arr h (s_arr s)) -> length (sl_vals h' s) = s_len s.
Proof.
  intros [tl E] H. unfold sl_vals. rewrite take_length, drop_length. unfold arr in *. rewrite E.
  destruct (h_arr h !! s_arr s) as [x|] eqn:Ex.
  - rewrite (lookup_app_l_Some _ _ _ _ Ex). simpl in *. lia.
  - simpl in H. lia.
Qed.
Lemma copy_cells l n cols : forall h a h', (forall p, p ∈ cols -> s_off p.2 + s_len p.2 <= length (arr h (s_arr p.2)) /\ s_len p.2 = n) ->
  copy_cols l cols h = Ok (a, h') -> total_cells h' = total_cells h + length cols * n.
Proof.
  unfold copy_cols. induction cols as [|p cols IH]; intros h a h' Hf.
  { intros [= _ <-]. simpl. lia. }
  cbn [forM]. intros (u & h1 & E1 & H)%bind_ok. apply bind_ok in E1 as (vs & h2 & [= <- <-] & E1).
  apply bind_ok in E1 as (s & h3 & E3 & E1). unfold lit_slice in E3. apply bind_ok in E3 as (x & h4 & [= _ <-] & [= _ <-]).
  assert (h_arr h `prefix_of` h_arr h1 /\ total_cells h1 = total_cells h + n) as [Hp Ht].
  { split.
    - unfold put_col in E1. apply bind_ok in E1 as (m & h5 & [= <- <-] & [= _ <-]). simpl. by exists [sl_vals h p.2].
    - rewrite (cells_put_col _ _ _ _ _ _ E1), total_app, (fits_vals h h); [|done|apply Hf; left].
      destruct (Hf p ltac:(left)) as [_ ->]. lia. }
  rewrite (IH h1 a h'); [simpl; lia| |exact H].
  intros q Hq. destruct (Hf q ltac:(by right)) as [H1 H2]. split; [|done]. etrans; [exact H1|].
  destruct Hp as [tl E]. unfold arr. rewrite E. destruct (h_arr h !! s_arr q.2) as [y|] eqn:Ey; [by rewrite (lookup_app_l_Some _ _ _ _ Ey)|]. simpl. lia.
Qed.
Lemma detached_cells d cols h v h' n : wfn h d n -> detached_view d cols h = Ok (v, h') ->
  let m := mp h (r_maps (d_raw d)) in
  total_cells h' = total_cells h + n * size (filter (fun p : key * slice => p.1.2 ∈ (if decide (cols = [] \/ length cols = num_columns m) then names m else list_to_set cols : gset string)) m).
Proof.
  intros W H m. unfold detached_view in H. apply bind_ok in H as (r & h1 & H & [= _ <-]).
  unfold unshare in H. apply bind_ok in H as (sh & h2 & [= <- <-] & H). cbn [view set_raw d_raw r_sharedMaps negb andb] in H.
  unfold own_maps in H. cbn [r_sharedMaps] in H. apply bind_ok in H as (r1 & h2 & E & H).
  destruct (reallocate_maps_spec (d_raw (view d)) h (wf_map _ _ _ W)) as (r2 & h3 & E' & X & A & _ & _ & _ & Em & _ & _ & Es & _).
  cbn [view set_raw d_raw] in E'. rewrite E in E'. injection E' as -> ->. cbn [view set_raw d_raw r_maps] in Em, Es. fold m in Em, Es.
  apply bind_ok in H as (m2 & h4 & [= <- <-] & H). apply bind_ok in H as (sh & h5 & [= <- <-] & H). rewrite Em, Es in H.
  apply bind_ok in H as (u & h4 & E4 & H). apply bind_ok in H as (u2 & h5 & E5 & [= _ <-]).
  assert (Ht5 : total_cells h5 = total_cells h4).
  { unfold shr_remove in E5. destruct (r_shared r2); injection E5 as _ <-; done. }
  rewrite Ht5. apply (copy_cells _ n) in E4.
  - rewrite E4. unfold total_cells at 1. rewrite A. fold (total_cells h). f_equal. rewrite Nat.mul_comm. f_equal.
    set (cs := if decide _ then _ else _).
    replace (size (filter (fun p : key * slice => p.1.2 ∈ cs) m)) with (size (filter (fun p : key * slice => p.1.2 ∈ names m /\ p.1.2 ∈ cs) m)); [done|].
    f_equal. apply map_filter_ext. intros k s Hk. split; [by intros [_ ?]|]. intros ?. split; [|done].
    apply elem_of_names. destruct k as [k c]. eauto.
  - intros [k s]. rewrite elem_of_map_to_list, map_filter_lookup_Some. intros [Hk _]. destruct (wf_cols _ _ _ W k s Hk) as [(H1 & H2 & _) H3].
    simpl. unfold arr in *. rewrite A. split; [lia|done].
Qed.
Lemma alloc_rows h d n : wfn h d n -> mp h (r_maps (d_raw d)) <> ∅ -> num_alloc_rows (mp h (r_maps (d_raw d))) = n.
Proof.
  intros W Hm. destruct (nar_ord_in _ (map_to_list (mp h (r_maps (d_raw d)))) ltac:(done)) as [[? _]|(k & s & Hk & E)]; [done|].
  unfold num_alloc_rows. rewrite E. by apply (wf_cols _ _ _ W k s).
Qed.
Lemma C104_detached_partial_main d cols h v h' : wf h d -> detached_view d cols h = Ok (v, h') ->
  let m := mp h (r_maps (d_raw d)) in
  cols <> [] -> length cols <> num_columns m \/ (forall c, c ∈ cols <-> c ∈ names m) ->
  total_cells h' = total_cells h + num_alloc_rows m * size (filter (fun p : key * slice => p.1.2 ∈ cols) m).
Proof.
  intros [n W] E m Hc Hl. rewrite (detached_cells _ _ _ _ _ _ W E). fold m.
  destruct (decide (m = ∅)) as [Hz|Hz].
  { rewrite Hz. rewrite !map_filter_empty, map_size_empty. lia. }
  fold m in Hz. pose proof (alloc_rows _ _ _ W Hz) as Hn. fold m in Hn. rewrite Hn. do 3 f_equal. apply map_filter_ext. intros k s _.
  destruct (decide (cols = [] \/ length cols = num_columns m)) as [[?|Hd]|Hd]; [done| |by rewrite elem_of_list_to_set].
  destruct Hl as [?|Hl]; [done|]. by rewrite Hl.
Qed.
Lemma C104_all_main d h v h' : wf h d -> detached_view d [] h = Ok (v, h') ->
  let m := mp h (r_maps (d_raw d)) in total_cells h' = total_cells h + num_alloc_rows m * num_columns m.
Proof.
  intros [n W] E m. rewrite (detached_cells _ _ _ _ _ _ W E). fold m. rewrite decide_True by (by left).
  destruct (decide (m = ∅)) as [Hz|Hz].
  { rewrite Hz. rewrite !map_filter_empty. unfold num_columns. rewrite map_size_empty. lia. }
  pose proof (alloc_rows _ _ _ W Hz) as Hn. fold m in Hn. rewrite Hn. do 2 f_equal. unfold num_columns. f_equal.
  apply map_eq. intros k. destruct (m !! k) as [s|] eqn:Hk.
  - apply map_filter_lookup_Some. split; [done|]. apply elem_of_names. destruct k. eauto.
  - apply map_filter_lookup_None. by left.
Qed.
End frame.

Section ex.
Local Existing Instance ex_rt.
Definition nc_cols : list string := replicate (num_columns (mp ex_h (r_maps (d_raw ex_d)))) "a".
Definition nc_res : dframe * heap := run_df (detached_view ex_d nc_cols) ex_h.
Definition nc_view : list dframe * heap := match run_view ex_d (VSplit 3) ex_h with Ok p => p | Panic => ([], heap0) end.
End ex.
Lemma C104_detached_refuted_main : exists (rt : GoRT) h d cols v h', wf h d /\ detached_view d cols h = Ok (v, h') /\
  (forall c, c ∈ cols -> c = "a") /\ num_alloc_rows (mp h (r_maps (d_raw d))) = 4 /\ total_cells h' = total_cells h + 4 * num_columns (mp h (r_maps (d_raw d))) /\
  1 < num_columns (mp h (r_maps (d_raw d))).
Proof.
  exists ex_rt, ex_h, ex_d, nc_cols, nc_res.1, nc_res.2. split; [exact ex_wf|]. split; [by vm_compute|].
  split; [intros c Hc; by apply elem_of_replicate_inv in Hc|]. split; [by vm_compute|]. split; [by vm_compute|]. vm_compute. lia.
Qed.
Lemma C104_check_main : wf ex_h ex_d /\ run_view (rt := ex_rt) ex_d (VSplit 3) ex_h = Ok nc_view /\ length nc_view.1 = 2 /\ 0 < total_cells ex_h /\
  is_Some (mp nc_view.2 (r_maps (d_raw (default ex_d (head nc_view.1)))) !! (KInt, "a")).
Proof.
  split; [exact ex_wf|]. split; [by vm_compute|]. split; [by vm_compute|]. split; [vm_compute; lia|].
  apply (bool_decide_unpack _). by vm_compute.
Qed.
