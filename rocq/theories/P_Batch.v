(** Proofs about row iterators and DenseMatrix. *)
From Verif Require Export M_Batch P_Check P_Priv.

(** ** initialize *)
Lemma filter_ext_in {A} (P Q : A -> Prop) `{forall x, Decision (P x)} `{forall x, Decision (Q x)} (l : list A) :
  (forall x, x ∈ l -> P x <-> Q x) -> filter P l = filter Q l.
Proof.
  induction l as [|a l IH]; intros Heq; [done|]. rewrite !filter_cons. rewrite IH by (intros x Hx; apply Heq; by right).
  pose proof (Heq a ltac:(by left)) as Ha. repeat case_decide; tauto.
Qed.
Definition kpos (k : kind) (ks : list key) : list nat :=
  filter (fun x => fst <$> ks !! x = Some k) (seq 0 (length ks)).
Lemma kpos_snoc k ks a : kpos k (ks ++ [a]) = kpos k ks ++ (if decide (a.1 = k) then [length ks] else []).
Proof.
  unfold kpos. rewrite app_length. simpl. rewrite Nat.add_1_r, seq_S, filter_app. f_equal.
  - apply filter_ext_in. intros x Hx. apply elem_of_seq in Hx. rewrite lookup_app_l by lia. done.
  - assert (E : (ks ++ [a]) !! length ks = Some a) by (by rewrite lookup_app_r, Nat.sub_diag by lia).
    rewrite filter_cons. simpl. rewrite E. simpl. repeat case_decide; try done; congruence.
Qed.
Lemma elem_of_kpos k ks x : x ∈ kpos k ks <-> exists a, ks !! x = Some a /\ a.1 = k.
Proof.
  unfold kpos. rewrite elem_of_list_filter, elem_of_seq. split.
  - intros [H _]. destruct (ks !! x) as [a|]; [|done]. simpl in H. exists a. split; [done|congruence].
  - intros (a & Ha & <-). rewrite Ha. split; [done|]. apply lookup_lt_Some in Ha. lia.
Qed.

Record bat_ok (b : batching) (ks : list key) : Prop := {
  bo_cols : b_columns b = ks.*2;
  bo_f : b_f b = kpos KFloat ks; bo_b : b_b b = kpos KBool ks; bo_i : b_i b = kpos KInt ks;
  bo_num : Forall (fun k : key => k.1 <> KObj) ks }.

Lemma num_key_name t c k : num_key t c = Some k -> k.2 = c /\ k.1 <> KObj /\ is_Some (t_cols t !! k).
Proof. unfold num_key. repeat case_decide; intros [= <-]; done. Qed.
Lemma num_keys_spec t cols ks : num_keys t cols = Some ks ->
  ks.*2 = cols /\ Forall (fun k : key => k.1 <> KObj) ks /\ Forall (fun k => is_Some (t_cols t !! k)) ks.
Proof.
  unfold num_keys. rewrite mapM_Some. induction 1 as [|c k cols ks H _ IH]; [by repeat constructor|].
  destruct IH as (IH1 & IH2 & IH3). destruct (num_key_name _ _ _ H) as (H1 & H2 & H3).
  split; [by rewrite fmap_cons, H1, IH1|]. split; by constructor.
Qed.

Section batch.
Context {rt : GoRT}.

Lemma batch_loop_spec t m all cols : (forall k, is_Some (t_cols t !! k) <-> is_Some (m !! k)) ->
  forall ks0, Forall (fun k : key => k.1 <> KObj) ks0 ->
  match batch_loop m (length ks0) cols (Batching all (kpos KFloat ks0) (kpos KBool ks0) (kpos KInt ks0)) with
  | Ok b => exists ks, num_keys t cols = Some ks /\ b = Batching all (kpos KFloat (ks0 ++ ks)) (kpos KBool (ks0 ++ ks)) (kpos KInt (ks0 ++ ks))
  | Panic => num_keys t cols = None
  end.
Proof.
  intros Hm. induction cols as [|c cols IH]; intros ks0 F; cbn [batch_loop].
  - exists []. by rewrite app_nil_r.
  - assert (Step : forall k : kind, num_key t c = Some (k, c) -> k <> KObj ->
      let ks1 := ks0 ++ [(k, c)] in
      match batch_loop m (S (length ks0)) cols (Batching all (kpos KFloat ks1) (kpos KBool ks1) (kpos KInt ks1)) with
      | Ok b => exists ks, num_keys t (c :: cols) = Some ks /\ b = Batching all (kpos KFloat (ks0 ++ ks)) (kpos KBool (ks0 ++ ks)) (kpos KInt (ks0 ++ ks))
      | Panic => num_keys t (c :: cols) = None
      end).
    { intros k Hk Hko ks1. specialize (IH ks1). assert (El : length ks1 = S (length ks0)) by (unfold ks1; rewrite app_length; simpl; lia). rewrite El in IH.
      assert (F1 : Forall (fun k : key => k.1 <> KObj) ks1) by (apply Forall_app; split; [done|by repeat constructor]).
      specialize (IH F1). unfold num_keys in *. cbn [mapM]. rewrite Hk. cbn [mbind option_bind].
      destruct (batch_loop _ _ _ _) as [b|].
      - destruct IH as (ks & -> & ->). exists ((k, c) :: ks). split; [done|]. unfold ks1. by rewrite <- !app_assoc.
      - by rewrite IH. }
    assert (Hnk : num_key t c = (if decide (is_Some (m !! (KFloat, c))) then Some (KFloat, c)
      else if decide (is_Some (m !! (KBool, c))) then Some (KBool, c)
      else if decide (is_Some (m !! (KInt, c))) then Some (KInt, c) else None)).
    { unfold num_key. repeat case_decide; rewrite ?Hm in *; done. }
    destruct (decide (is_Some (m !! (KFloat, c)))).
    { specialize (Step KFloat Hnk ltac:(done)). cbv zeta in Step. rewrite !kpos_snoc in Step. simpl in Step. rewrite !app_nil_r in Step. exact Step. }
    destruct (decide (is_Some (m !! (KBool, c)))).
    { specialize (Step KBool Hnk ltac:(done)). cbv zeta in Step. rewrite !kpos_snoc in Step. simpl in Step. rewrite !app_nil_r in Step. exact Step. }
    destruct (decide (is_Some (m !! (KInt, c)))).
    { specialize (Step KInt Hnk ltac:(done)). cbv zeta in Step. rewrite !kpos_snoc in Step. simpl in Step. rewrite !app_nil_r in Step. exact Step. }
    unfold num_keys. cbn [mapM]. by rewrite Hnk.
Qed.
Lemma batch_init_spec h d cols :
  match batch_init d cols h with
  | Ok (b, h') => h' = h /\ exists ks, num_keys (abs h d) cols = Some ks /\ bat_ok b ks
  | Panic => num_keys (abs h d) cols = None
  end.
Proof.
  unfold batch_init, bind, get_mp, lift.
  pose proof (batch_loop_spec (abs h d) (mp h (r_maps (d_raw d))) cols cols) as H.
  specialize (H ltac:(intros k; rewrite abs_cols_lookup, fmap_is_Some; done) [] ltac:(constructor)). 
  change (length []) with 0 in H. change (kpos KFloat []) with (@nil nat) in H. change (kpos KBool []) with (@nil nat) in H.
  change (kpos KInt []) with (@nil nat) in H.
  destruct (batch_loop _ _ _ _) as [b|]; [|done]. destruct H as (ks & Hk & ->). split; [done|]. exists ks. split; [done|].
  destruct (num_keys_spec _ _ _ Hk) as (H1 & H2 & _). by split.
Qed.

Lemma col_name_ok b ks x a : bat_ok b ks -> ks !! x = Some a -> col_name b x = a.2.
Proof. intros [H _ _ _ _] Hx. unfold col_name. by rewrite H, list_lookup_fmap, Hx. Qed.

(** ** Loading a chunk *)
Lemma put_column_spec w x vs : forall rows, x < w -> Forall (fun r => length r = w) rows -> length vs <= length rows ->
  exists rows', put_column x vs rows = Ok rows' /\ length rows' = length rows /\
    forall j, rows' !! j = (fun r => match vs !! j with Some v => <[x := v]> r | None => r end) <$> rows !! j.
Proof.
  induction vs as [|v vs IH]; intros rows Hx F Hl; cbn [put_column].
  - exists rows. split; [done|]. split; [done|]. intros j. rewrite lookup_nil. by destruct (rows !! j).
  - destruct rows as [|r rows]; [simpl in Hl; lia|]. apply Forall_cons in F as [Hr F].
    rewrite decide_True by lia. destruct (IH rows Hx F ltac:(simpl in Hl; lia)) as (rows' & -> & H1 & H2).
    eexists. split; [done|]. split; [simpl; lia|]. intros [|j]; [done|]. simpl. apply H2.
Qed.

(** The value of column [k] at the storage position [i]. *)
Definition cell32 (h : heap) (d : dframe) (k : key) (i : nat) : f64 :=
  f32_of_val (default (VInt 0) (default [] (sl_vals h <$> mp h (r_maps (d_raw d)) !! k) !! i)).

Lemma load_columns_spec h d n b ks k sub : wfn h d n -> bat_ok b ks -> Forall (fun i => i < n) sub ->
  Forall (fun k => is_Some (mp h (r_maps (d_raw d)) !! k)) ks ->
  forall xs rows, NoDup xs -> (forall x, x ∈ xs -> exists a, ks !! x = Some a /\ a.1 = k) ->
  Forall (fun r => length r = length ks) rows -> length sub <= length rows ->
  exists rows', load_columns d b k sub xs rows h = Ok (rows', h) /\ length rows' = length rows /\
    Forall (fun r => length r = length ks) rows' /\
    forall j row, rows !! j = Some row -> exists row', rows' !! j = Some row' /\
      forall y, row' !! y = (if decide (y ∈ xs) then
                               match sub !! j, ks !! y with
                               | Some i, Some a => Some (cell32 h d a i)
                               | _, _ => row !! y end
                             else row !! y).
Proof.
  intros W B Fs Fk. induction xs as [|x xs IH]; intros rows Hnd Hx F Hl; cbn [load_columns].
  - exists rows. split; [done|]. split; [done|]. split; [done|]. intros j row Hj. exists row. split; [done|].
    intros y. rewrite decide_False; [done|]. apply not_elem_of_nil.
  - apply NoDup_cons in Hnd as [Hnx Hnd].
    destruct (Hx x ltac:(by left)) as (a & Ha & Hak).
    rewrite (bind_eq _ _ _ (mp h (r_maps (d_raw d))) h) by done.
    assert (Ek : (k, col_name b x) = a). { rewrite (col_name_ok _ _ _ _ B Ha). destruct a. simpl in *. congruence. }
    rewrite Ek. rewrite Forall_forall in Fk. destruct (Fk a) as [s Hs]; [by eapply elem_of_list_lookup_2|].
    rewrite Hs. simpl. destruct (wfn_col _ _ _ _ _ W Hs) as (Hcok & Hsl & Hr).
    assert (Hlen : length (sl_vals h s) = n) by (by rewrite (col_ok_vals_length _ _ _ Hcok)).
    rewrite (bind_eq _ _ _ (pick sub (sl_vals h s)) h).
    2: { apply gather_ok. by rewrite Hlen. }
    assert (Hpl : length (f32_of_val <$> pick sub (sl_vals h s)) = length sub).
    { rewrite fmap_length. apply pick_length. by rewrite Hlen. }
    destruct (put_column_spec (length ks) x (f32_of_val <$> pick sub (sl_vals h s)) rows) as (r1 & E1 & L1 & G1).
    { by apply lookup_lt_Some in Ha. } { done. } { by rewrite Hpl. }
    rewrite (bind_eq _ _ _ r1 h) by (unfold lift; by rewrite E1).
    assert (F1 : Forall (fun r => length r = length ks) r1).
    { apply Forall_lookup. intros j r Hj. rewrite G1 in Hj. destruct (rows !! j) as [r0|] eqn:Er; [|done].
      simpl in Hj. injection Hj as <-. rewrite Forall_lookup in F. specialize (F _ _ Er).
      destruct ((f32_of_val <$> pick sub (sl_vals h s)) !! j); [by rewrite insert_length|done]. }
    destruct (IH r1 Hnd) as (r2 & E2 & L2 & F2 & G2); [|done|by rewrite L1|].
    { intros y Hy. apply Hx. by right. }
    exists r2. split; [done|]. split; [congruence|]. split; [done|]. intros j row Hj.
    assert (Hj1 : r1 !! j = Some (match (f32_of_val <$> pick sub (sl_vals h s)) !! j with Some v => <[x := v]> row | None => row end)).
    { by rewrite G1, Hj. }
    destruct (G2 _ _ Hj1) as (row2 & Hr2 & H2). exists row2. split; [done|]. intros y. rewrite H2.
    rewrite list_lookup_fmap.
    assert (Hpk : pick sub (sl_vals h s) !! j = (i ← sub !! j; sl_vals h s !! i)).
    { apply pick_lookup. by rewrite Hlen. }
    rewrite Hpk. rewrite Forall_lookup in F. specialize (F _ _ Hj).
    destruct (sub !! j) as [i|] eqn:Ei; simpl.
    + assert (Hi : i < n) by (by apply (Forall_lookup_1 _ _ _ _ Fs Ei)).
      destruct (lookup_lt_is_Some_2 (sl_vals h s) i) as [v Hv]; [lia|]. rewrite Hv. simpl.
      assert (Ec : cell32 h d a i = f32_of_val v). { unfold cell32. rewrite Hs. simpl. by rewrite Hv. }
      destruct (decide (x = y)) as [<-|Hne].
      * rewrite (decide_False (P := x ∈ xs)), (decide_True (P := x ∈ x :: xs)) by (done || by left). rewrite Ha, list_lookup_insert, Ec; [done|].
        rewrite F. by eapply lookup_lt_Some.
      * rewrite list_lookup_insert_ne by done.
        destruct (decide (y ∈ xs)); destruct (decide (y ∈ x :: xs)) as [Hy|Hy]; try done.
        -- by apply not_elem_of_cons in Hy as [_ ?].
        -- apply elem_of_cons in Hy as [?|?]; [congruence|done].
    + repeat case_decide; done.
Qed.

Lemma kpos_nodup k ks : NoDup (kpos k ks).
Proof. unfold kpos. apply NoDup_filter, NoDup_seq. Qed.

(** The three loops of NextRow. *)
Definition load_all (d : dframe) (b : batching) (sub : list nat) (rows : list (list f64)) : M (list (list f64)) :=
  let* rows := load_columns d b KBool sub (b_b b) rows in
  let* rows := load_columns d b KInt sub (b_i b) rows in
  load_columns d b KFloat sub (b_f b) rows.
Lemma load_all_spec h d n b ks sub rows : wfn h d n -> bat_ok b ks -> Forall (fun i => i < n) sub ->
  Forall (fun k => is_Some (mp h (r_maps (d_raw d)) !! k)) ks ->
  Forall (fun r => length r = length ks) rows -> length sub <= length rows ->
  exists rows', load_all d b sub rows h = Ok (rows', h) /\ length rows' = length rows /\
    Forall (fun r => length r = length ks) rows' /\
    forall j i, sub !! j = Some i -> rows' !! j = Some ((fun a => cell32 h d a i) <$> ks).
Proof.
  intros W B Fs Fk F Hl. unfold load_all.
  destruct (load_columns_spec h d n b ks KBool sub W B Fs Fk (b_b b) rows) as (r1 & E1 & L1 & F1 & G1).
  { rewrite (bo_b _ _ B). apply kpos_nodup. } { intros x. rewrite (bo_b _ _ B). by rewrite elem_of_kpos. } { done. } { done. }
  rewrite (bind_eq _ _ _ _ _ E1).
  destruct (load_columns_spec h d n b ks KInt sub W B Fs Fk (b_i b) r1) as (r2 & E2 & L2 & F2 & G2).
  { rewrite (bo_i _ _ B). apply kpos_nodup. } { intros x. rewrite (bo_i _ _ B). by rewrite elem_of_kpos. } { done. } { by rewrite L1. }
  rewrite (bind_eq _ _ _ _ _ E2).
  destruct (load_columns_spec h d n b ks KFloat sub W B Fs Fk (b_f b) r2) as (r3 & E3 & L3 & F3 & G3).
  { rewrite (bo_f _ _ B). apply kpos_nodup. } { intros x. rewrite (bo_f _ _ B). by rewrite elem_of_kpos. } { done. } { by rewrite L2, L1. }
  exists r3. split; [done|]. split; [congruence|]. split; [done|]. intros j i Hj.
  destruct (lookup_lt_is_Some_2 rows j) as [row Hrow]; [apply lookup_lt_Some in Hj; lia|].
  destruct (G1 _ _ Hrow) as (row1 & H1 & A1). destruct (G2 _ _ H1) as (row2 & H2 & A2). destruct (G3 _ _ H2) as (row3 & H3 & A3).
  rewrite H3. f_equal. apply list_eq. intros y. rewrite A3, A2, A1, list_lookup_fmap, Hj.
  destruct (ks !! y) as [a|] eqn:Ey.
  - simpl. pose proof (bo_num _ _ B) as Hn. rewrite Forall_lookup in Hn. specialize (Hn _ _ Ey).
    rewrite (bo_b _ _ B), (bo_i _ _ B), (bo_f _ _ B).
    assert (Hk : forall k, y ∈ kpos k ks <-> a.1 = k).
    { intros k. rewrite elem_of_kpos. split; [intros (a' & ? & <-); congruence|eauto]. }
    destruct (decide (y ∈ kpos KFloat ks)) as [|N1]; [done|]. destruct (decide (y ∈ kpos KInt ks)) as [|N2]; [done|].
    destruct (decide (y ∈ kpos KBool ks)) as [|N3]; [done|]. rewrite Hk in N1, N2, N3. by destruct a as [[] ?].
  - simpl. assert (row !! y = None) as ->.
    { apply lookup_ge_None. rewrite Forall_lookup in F. rewrite (F _ _ Hrow). by apply lookup_ge_None in Ey. }
    repeat case_decide; done.
Qed.

(** ** NextRow *)
Record it_inv (h : heap) (d : dframe) (ks : list key) (n : nat) (it : iterator) : Prop := {
  ii_df : it_df it = d; ii_bat : bat_ok (it_bat it) ks; ii_ix : it_ix it = n; ii_le : n <= num_rows d;
  ii_off : it_off it = n mod 128; ii_len : length (it_rows it) = 128;
  ii_w : Forall (fun r => length r = length ks) (it_rows it);
  ii_sub : n mod 128 <> 0 -> it_sub it = take (n - n mod 128 + 128 - (n - n mod 128)) (drop (n - n mod 128) (inds d));
  ii_rows : n mod 128 <> 0 -> forall j i, n mod 128 <= j -> it_sub it !! j = Some i ->
    it_rows it !! j = Some ((fun a => cell32 h d a i) <$> ks) }.

Lemma t_num_row_cells h d n ks j i : wfn h d n -> Forall (fun k => is_Some (t_cols (abs h d) !! k)) ks ->
  inds d !! j = Some i -> t_num_row f32_of_val (abs h d) ks j = (fun a => cell32 h d a i) <$> ks.
Proof.
  intros W F Hj. unfold t_num_row. apply list_fmap_ext. intros x a Ha.
  rewrite Forall_lookup in F. destruct (F _ _ Ha) as [col Hc]. rewrite abs_cols_lookup in Hc |- *.
  unfold cell32. destruct (mp h (r_maps (d_raw d)) !! a) as [s|] eqn:Es; [|done]. simpl.
  destruct (wfn_col _ _ _ _ _ W Es) as (_ & _ & Hr). rewrite pick_lookup by done. rewrite Hj. done.
Qed.

Lemma take_min {A} (m : nat) (l : list A) k : take (m `min` length l - k) (drop k l) = take (m - k) (drop k l).
Proof.
  destruct (decide (m <= length l)) as [H|H]; [by rewrite Nat.min_l|]. rewrite Nat.min_r by lia.
  rewrite !take_ge; [done| |]; rewrite drop_length; lia.
Qed.

Lemma next_row_spec h d ks n it : wf h d -> Forall (fun k => is_Some (t_cols (abs h d) !! k)) ks ->
  it_inv h d ks n it ->
  if decide (n = num_rows d) then
    next_row it h = Ok ((None, num_rows d, num_alloc_rows (mp h (r_maps (d_raw d))), it), h)
  else exists it' i, inds d !! n = Some i /\
    next_row it h = Ok ((Some (t_num_row f32_of_val (abs h d) ks n), n, i, it'), h) /\ it_inv h d ks (S n) it'.
Proof.
  intros [m W] Fk I. unfold next_row.
  rewrite (ii_df _ _ _ _ _ I), (ii_ix _ _ _ _ _ I). rewrite (bind_eq _ _ _ (mp h (r_maps (d_raw d))) h) by done.
  destruct (decide (n = num_rows d)) as [->|Hne].
  { done. }
  pose proof (ii_le _ _ _ _ _ I) as Hle.
  assert (Hil : length (inds d) = num_rows d) by (by eapply wfn_inds_length).
  destruct (lookup_lt_is_Some_2 (inds d) n) as [i Hi]; [lia|].
  assert (Hmod : n mod 128 < 128) by (apply Nat.mod_upper_bound; lia).
  assert (Hmle : n mod 128 <= n) by (apply Nat.mod_le; lia).
  set (c := n - n mod 128).
  (* the chunk is loaded *)
  assert (Load : exists it1, (if decide (it_off it = 0) then
                let* sub := (if decide (n <= (n + 128) `min` num_rows d)
                             then ret (take ((n + 128) `min` num_rows d - n) (drop n (inds d)))
                             else panic) in
                let* rows := load_columns d (it_bat it) KBool sub (b_b (it_bat it)) (it_rows it) in
                let* rows := load_columns d (it_bat it) KInt sub (b_i (it_bat it)) rows in
                let* rows := load_columns d (it_bat it) KFloat sub (b_f (it_bat it)) rows in
                ret (Iterator (it_bat it) d 0 n sub rows)
              else ret it) h = Ok (it1, h) /\
     it_bat it1 = it_bat it /\ it_ix it1 = n /\ it_off it1 = n mod 128 /\ length (it_rows it1) = 128 /\
     Forall (fun r => length r = length ks) (it_rows it1) /\
     it_sub it1 = take 128 (drop c (inds d)) /\
     forall j i, n mod 128 <= j -> it_sub it1 !! j = Some i -> it_rows it1 !! j = Some ((fun a => cell32 h d a i) <$> ks)).
  { destruct (decide (it_off it = 0)) as [H0|H0].
    - assert (Hz : n mod 128 = 0) by (by rewrite <- (ii_off _ _ _ _ _ I)).
      assert (Hc : c = n) by (unfold c; lia).
      rewrite decide_True by lia. unfold ret at 1. unfold bind at 1.
      replace (take ((n + 128) `min` num_rows d - n) (drop n (inds d))) with (take 128 (drop n (inds d))).
      2: { rewrite <- Hil, take_min. f_equal. lia. }
      destruct (load_all_spec h d m (it_bat it) ks (take 128 (drop n (inds d))) (it_rows it)) as (rows' & E & L & F & G).
      { done. } { apply I. } { apply Forall_take, Forall_drop. by eapply wf_rng. }
      { eapply Forall_impl; [exact Fk|]. intros a Ha. cbv beta in Ha |- *. by rewrite abs_cols_lookup, fmap_is_Some in Ha. }
      { apply I. } { rewrite (ii_len _ _ _ _ _ I), take_length. lia. }
      eexists. split.
      + unfold load_all in E. apply bind_ok in E as (ra & ha & Ea & E). apply bind_ok in E as (rb & hb & Eb & E).
        rewrite (bind_eq _ _ _ _ _ Ea), (bind_eq _ _ _ _ _ Eb), (bind_eq _ _ _ _ _ E). reflexivity.
      + cbn [it_bat it_ix it_off it_rows it_sub it_df]. split; [done|]. split; [done|]. split; [by rewrite Hz|]. split; [by rewrite L, (ii_len _ _ _ _ _ I)|].
        split; [done|]. split; [by rewrite Hc|]. intros j i' _. apply G.
    - assert (Hz : n mod 128 <> 0) by (by rewrite <- (ii_off _ _ _ _ _ I)).
      exists it. split; [done|]. destruct I. do 5 (split; [done|]). split; [|by apply ii_rows0].
      rewrite (ii_sub0 Hz). f_equal. unfold c. lia. }
  destruct Load as (it1 & E & Hb & Hx & Ho & Hl & Hw & Hs & Hr). rewrite (bind_eq _ _ _ _ _ E).
  assert (Hsi : it_sub it1 !! (n mod 128) = Some i).
  { rewrite Hs, lookup_take by lia. rewrite lookup_drop. rewrite <- Hi. f_equal. unfold c. lia. }
  rewrite Ho, Hsi, (Hr (n mod 128) i (le_n _) Hsi), Hl, Hx.
  eexists _, i. split; [done|]. split.
  { rewrite (t_num_row_cells h d m ks n i W Fk Hi). reflexivity. }
  assert (HS : (n mod 128 + 1) mod 128 = S n mod 128).
  { rewrite <- (Nat.add_1_r n). by rewrite Nat.add_mod_idemp_l. }
  split; cbn [it_bat it_ix it_off it_rows it_sub it_df]; try done.
  - rewrite Hb. apply I. - lia. - lia.
  - intros Hn0.
    assert (S n mod 128 = n mod 128 + 1).
    { rewrite <- HS. apply Nat.mod_small. destruct (decide (n mod 128 = 127)) as [E127|]; [|lia].
      rewrite E127 in HS. change ((127 + 1) mod 128) with 0 in HS. lia. }
    rewrite Hs. unfold c. replace (S n - S n mod 128) with (n - n mod 128) by lia. f_equal. lia.
  - intros Hn0 j i' Hj. apply Hr. 
    assert (S n mod 128 = n mod 128 + 1).
    { rewrite <- HS. apply Nat.mod_small. destruct (decide (n mod 128 = 127)) as [E127|]; [|lia].
      rewrite E127 in HS. change ((127 + 1) mod 128) with 0 in HS. lia. }
    lia.
Qed.

Lemma edit_inv h d ks n it vs : it_inv h d ks n it -> it_inv h d ks n (edit_row it vs).
Proof.
  intros I. unfold edit_row. rewrite (ii_off _ _ _ _ _ I).
  destruct (it_rows it !! ((n mod 128 + 127) mod 128)) as [row|] eqn:Er; [|done].
  case_decide as Hv; [|done]. destruct I. split; cbn [it_bat it_ix it_off it_rows it_sub it_df]; try done.
  - by rewrite insert_length.
  - apply Forall_insert; [done|]. rewrite Forall_lookup in ii_w0. rewrite Hv. by eapply ii_w0.
  - intros Hn j i Hj Hi. rewrite list_lookup_insert_ne; [by apply ii_rows0|].
    assert (n mod 128 < 128) by (apply Nat.mod_upper_bound; lia).
    replace (n mod 128 + 127) with ((n mod 128 - 1) + 1 * 128) by lia. rewrite Nat.mod_add by lia.
    rewrite Nat.mod_small by lia. lia.
Qed.

(** A sequence of calls of NextRow, the caller overwriting the row after some of
    them. *)
Fixpoint iterate (it : iterator) (es : list (option (list f64))) : M (list (option (list f64) * nat * nat) * iterator) :=
  match es with
  | [] => ret ([], it)
  | e :: es =>
      let* r := next_row it in
      let '(row, i, j, it) := r in
      let it := match e with Some vs => edit_row it vs | None => it end in
      let* r := iterate it es in
      ret ((row, i, j) :: r.1, r.2)
  end.
(** What call number [n] must deliver. *)
Definition nth_row (h : heap) (d : dframe) (ks : list key) (n : nat) : option (list f64) * nat * nat :=
  match inds d !! n with
  | Some i => (Some (t_num_row f32_of_val (abs h d) ks n), n, i)
  | None => (None, num_rows d, num_alloc_rows (mp h (r_maps (d_raw d))))
  end.
Lemma iterate_spec h d ks : wf h d -> Forall (fun k => is_Some (t_cols (abs h d) !! k)) ks ->
  forall es n it, it_inv h d ks n it ->
  exists it', iterate it es h = Ok ((nth_row h d ks <$> seq n (length es), it'), h) /\
    exists n', it_inv h d ks n' it'.
Proof.
  intros W Fk. induction es as [|e es IH]; intros n it I; cbn [iterate].
  - exists it. split; [done|]. eauto.
  - pose proof (next_row_spec h d ks n it W Fk I) as H. destruct W as [m W].
    assert (Hil : length (inds d) = num_rows d) by (by eapply wfn_inds_length).
    case_decide as Hn.
    + rewrite (bind_eq _ _ _ _ _ H).
      assert (I' : it_inv h d ks n (match e with Some vs => edit_row it vs | None => it end)).
      { destruct e; [by apply edit_inv|done]. }
      destruct (IH n _ I') as (it' & E & I2). rewrite (bind_eq _ _ _ _ _ E).
      exists it'. split; [|done]. unfold ret. cbn [length seq fmap list_fmap fst snd]. do 4 f_equal.
      * unfold nth_row. by rewrite (proj2 (lookup_ge_None _ _)) by lia.
      * change (list_fmap _ _ ?f ?l) with (f <$> l). rewrite <- fmap_S_seq, <- list_fmap_compose.
        apply list_fmap_ext. intros j x Hx. apply lookup_seq in Hx as [-> _]. unfold nth_row. simpl.
        by rewrite !(proj2 (lookup_ge_None _ _)) by lia.
    + destruct H as (it1 & i & Hi & E1 & I1). rewrite (bind_eq _ _ _ _ _ E1).
      assert (I' : it_inv h d ks (S n) (match e with Some vs => edit_row it1 vs | None => it1 end)).
      { destruct e; [by apply edit_inv|done]. }
      destruct (IH (S n) _ I') as (it' & E & I2). rewrite (bind_eq _ _ _ _ _ E).
      exists it'. split; [|done]. unfold ret. cbn [length seq fmap list_fmap fst snd]. do 4 f_equal.
      unfold nth_row. by rewrite Hi.
Qed.
Lemma new_iterator_spec h d cols :
  match new_iterator d cols h with
  | Ok (it, h') => h' = h /\ exists ks, num_keys (abs h d) cols = Some ks /\ it_inv h d ks 0 it
  | Panic => num_keys (abs h d) cols = None
  end.
Proof.
  unfold new_iterator. pose proof (batch_init_spec h d cols) as H. unfold bind.
  destruct (batch_init d cols h) as [[b h']|]; [|done]. destruct H as (-> & ks & Hk & B). unfold ret.
  split; [done|]. exists ks. split; [done|].
  assert (Hl : length cols = length ks). { destruct (num_keys_spec _ _ _ Hk) as (<- & _). by rewrite fmap_length. }
  split; try done.
  - cbn [it_rows]. lia.
  - cbn [it_rows]. rewrite Hl. apply Forall_replicate. by rewrite replicate_length.
Qed.
Lemma it_reset_spec h d0 d ks n it check : it_inv h d0 ks n it ->
  match it_reset it d check h with
  | Ok (it', h') => h' = h /\ it_inv h d ks 0 it' /\ (check = true -> Forall (fun k => is_Some (t_cols (abs h d) !! k)) ks)
  | Panic => check = true /\ ~ Forall (fun k => is_Some (t_cols (abs h d) !! k)) ks
  end.
Proof.
  intros I. unfold it_reset. rewrite (bind_eq _ _ _ (mp h (r_maps (d_raw d))) h) by done. cbv zeta.
  set (m := mp h (r_maps (d_raw d))).
  assert (Hall : has_all m KBool (it_bat it) (b_b (it_bat it)) && has_all m KInt (it_bat it) (b_i (it_bat it)) &&
     has_all m KFloat (it_bat it) (b_f (it_bat it)) = true <-> Forall (fun k => is_Some (t_cols (abs h d) !! k)) ks).
  { destruct I. pose proof (bo_num _ _ ii_bat0) as Hn. 
    assert (Hone : forall k l, l = kpos k ks -> has_all m k (it_bat it) l = true <->
       forall x a, ks !! x = Some a -> a.1 = k -> is_Some (m !! a)).
    { intros k l ->. unfold has_all. rewrite forallb_forall. split.
      - intros H x a Hx Ha. specialize (H x). rewrite bool_decide_eq_true in H.
        rewrite (col_name_ok _ _ _ _ ii_bat0 Hx) in H. destruct a as [k' c]. simpl in *. subst k'. apply H.
        apply elem_of_list_In, elem_of_kpos. eauto.
      - intros H x Hx. apply elem_of_list_In, elem_of_kpos in Hx as (a & Hx & Ha). apply bool_decide_eq_true.
        rewrite (col_name_ok _ _ _ _ ii_bat0 Hx). specialize (H _ _ Hx Ha). destruct a as [k' c]. simpl in *. by subst. }
    rewrite !andb_true_iff, (Hone KBool _ (bo_b _ _ ii_bat0)), (Hone KInt _ (bo_i _ _ ii_bat0)), (Hone KFloat _ (bo_f _ _ ii_bat0)).
    rewrite Forall_lookup. setoid_rewrite abs_cols_lookup. setoid_rewrite fmap_is_Some. fold m. split.
    - intros [[H1 H2] H3] x a Hx. rewrite Forall_lookup in Hn. specialize (Hn _ _ Hx). destruct a as [[] c]; simpl in *; try done;
        first [by eapply H1 | by eapply H2 | by eapply H3].
    - intros H. split; [split|]; intros x a Hx _; by eapply H. }
  destruct check; simpl.
  - destruct (negb _) eqn:En.
    + apply negb_true_iff in En. split; [done|]. intros F. apply Hall in F. congruence.
    + apply negb_false_iff in En. split; [done|]. destruct I. split; [split; cbn [it_bat it_ix it_off it_rows it_sub it_df]; done || lia|]. intros _. by apply Hall.
  - split; [done|]. destruct I. split; [split; cbn [it_bat it_ix it_off it_rows it_sub it_df]; done || lia|]. done.
Qed.
End batch.
