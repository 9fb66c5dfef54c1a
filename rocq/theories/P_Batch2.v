(** Proofs about DenseMatrix. *)
From Verif Require Export P_Batch.

Section batch.
Context {rt : GoRT}.

Lemma write_data_spec len vs : forall pos buf, pos + length vs <= len -> len <= length buf ->
  exists buf', write_data pos len vs buf = Ok buf' /\ length buf' = length buf /\
    forall p, buf' !! p = if decide (pos <= p < pos + length vs) then vs !! (p - pos) else buf !! p.
Proof.
  induction vs as [|v vs IH]; intros pos buf H1 H2; cbn [write_data].
  - exists buf. split; [done|]. split; [done|]. intros p. rewrite decide_False by (simpl; lia). done.
  - simpl length in *. rewrite decide_True by lia.
    destruct (IH (S pos) (<[pos := v]> buf)) as (buf' & -> & L & G); [lia|by rewrite insert_length|].
    exists buf'. split; [done|]. rewrite insert_length in L. split; [done|]. intros p. rewrite G.
    destruct (decide (p = pos)) as [->|Hne].
    + rewrite decide_False by lia. rewrite decide_True by lia. rewrite Nat.sub_diag. rewrite list_lookup_insert by lia. done.
    + destruct (decide (S pos <= p < S pos + length vs)).
      * rewrite decide_True by lia. replace (p - pos) with (S (p - S pos)) by lia. done.
      * rewrite decide_False by lia. by rewrite list_lookup_insert_ne.
Qed.

Definition cell64 (h : heap) (d : dframe) (k : key) (i : nat) : f64 :=
  f64_of_val (default (VInt 0) (default [] (t_cols (abs h d) !! k) !! i)).

Lemma dense_columns_spec h d m b ks k len : wfn h d m -> bat_ok b ks ->
  Forall (fun k => is_Some (mp h (r_maps (d_raw d)) !! k)) ks -> num_rows d * length ks <= len ->
  forall xs buf, NoDup xs -> (forall x, x ∈ xs -> exists a, ks !! x = Some a /\ a.1 = k) -> len <= length buf ->
  exists buf', dense_columns d b k len xs buf h = Ok (buf', h) /\ length buf' = length buf /\
    forall y i, i < num_rows d -> buf' !! (num_rows d * y + i) =
      if decide (y ∈ xs) then (fun a => cell64 h d a i) <$> ks !! y else buf !! (num_rows d * y + i).
Proof.
  intros W B Fk Hlen. induction xs as [|x xs IH]; intros buf Hnd Hx Hb; cbn [dense_columns].
  - exists buf. split; [done|]. split; [done|]. intros y i Hi. rewrite decide_False; [done|]. apply not_elem_of_nil.
  - apply NoDup_cons in Hnd as [Hnx Hnd]. destruct (Hx x ltac:(by left)) as (a & Ha & Hak).
    pose proof (lookup_lt_Some _ _ _ Ha) as Hxl.
    assert (Hpos : num_rows d * x + num_rows d <= len) by nia.
    cbv zeta. rewrite decide_False by lia. rewrite (bind_eq _ _ _ (mp h (r_maps (d_raw d))) h) by done.
    assert (Ek : (k, col_name b x) = a). { rewrite (col_name_ok _ _ _ _ B Ha). destruct a. simpl in *. congruence. }
    rewrite Ek. rewrite Forall_forall in Fk. destruct (Fk a) as [s Hs]; [by eapply elem_of_list_lookup_2|].
    rewrite Hs. simpl default. destruct (wfn_col _ _ _ _ _ W Hs) as (Hcok & Hsl & Hr).
    assert (Hvl : length (sl_vals h s) = m) by (by rewrite (col_ok_vals_length _ _ _ Hcok)).
    set (vs := pick (inds d) (sl_vals h s)).
    assert (Hvs : length vs = num_rows d).
    { unfold vs. rewrite pick_length by done. by eapply wfn_inds_length. }
    destruct (write_data_spec len (f64_of_val <$> vs) (num_rows d * x) buf) as (buf1 & E1 & L1 & G1).
    { rewrite fmap_length, Hvs. lia. } { done. }
    rewrite (bind_eq _ _ _ buf1 h).
    2: { destruct (decide (k = KFloat /\ d_viewed d = false)) as [[_ Hv]|_].
         - rewrite (bind_eq _ _ _ (sl_vals h s) h) by done. unfold lift.
           destruct (wf_cont _ _ _ W Hv) as [Hi Hn].
           assert (Evs : vs = sl_vals h s). { unfold vs. rewrite Hi, Hn, <- Hvl. apply pick_seq_all. }
           rewrite take_ge by lia. by rewrite <- Evs, E1.
         - rewrite (bind_eq _ _ _ vs h) by (by apply gather_ok). unfold lift. by rewrite E1. }
    destruct (IH buf1 Hnd) as (buf2 & E2 & L2 & G2); [|lia|].
    { intros y Hy. apply Hx. by right. }
    exists buf2. split; [done|]. split; [lia|]. intros y i Hi. rewrite (G2 y i Hi), G1. rewrite fmap_length, Hvs.
    destruct (decide (y = x)) as [->|Hne].
    + rewrite (decide_False (P := x ∈ xs)) by done. rewrite (decide_True (P := x ∈ x :: xs)) by (by left).
      rewrite decide_True by lia. rewrite Ha. simpl.
      replace (num_rows d * x + i - num_rows d * x) with i by lia. rewrite list_lookup_fmap. unfold cell64.
      rewrite abs_cols_lookup, Hs. simpl. fold vs.
      destruct (lookup_lt_is_Some_2 vs i) as [v Hv]; [lia|]. by rewrite Hv.
    + assert (Hiff : y ∈ x :: xs <-> y ∈ xs). { rewrite elem_of_cons. split; [intros [?|?]; done|by right]. }
      destruct (decide (y ∈ xs)) as [Hy|Hy]; destruct (decide (y ∈ x :: xs)) as [Hy2|Hy2]; try tauto.
      rewrite decide_False; [done|]. nia.
Qed.

Record dense_ok (db : dense) (ks : list key) : Prop := {
  do_bat : exists b, db_bat db = Some b /\ bat_ok b ks; do_len : db_len db <= length (db_buf db) }.

Lemma grow_data_length buf len missing : len <= length buf -> len + missing <= length (grow_data buf len missing).
Proof.
  intros H. unfold grow_data. cbv zeta. pose proof (rt_grow_ok (length buf) (len + missing)). case_decide.
  - rewrite !app_length, take_length, replicate_length, drop_length. lia.
  - rewrite app_length, take_length, replicate_length. lia.
Qed.

Definition len_after (dim n len : nat) : nat :=
  len + Z.to_nat (Z.of_nat dim * (Z.of_nat n - Z.of_nat len)).

(** What DenseMatrix does once the column positions are known. *)
Definition dense_body (db : dense) (b : batching) (d : dframe) : M (list (list f64) * dense) :=
  let dim := length (b_columns b) in
  let n := num_rows d in
  let missing := Z.to_nat (Z.of_nat dim * (Z.of_nat n - Z.of_nat (db_len db))) in
  let buf := if decide (missing = 0) then db_buf db else grow_data (db_buf db) (db_len db) missing in
  let len := db_len db + missing in
  let* buf := dense_columns d b KFloat len (b_f b) buf in
  let* buf := dense_columns d b KInt len (b_i b) buf in
  let* buf := dense_columns d b KBool len (b_b b) buf in
  if decide (n = 0 \/ dim = 0 \/ length buf < n * dim) then panic else
  ret ((fun i => (fun j => default f64_zero (buf !! (n * j + i))) <$> seq 0 dim) <$> seq 0 n,
       Dense (db_cols db) (Some b) buf len).
Lemma dense_body_spec h d b ks db : wf h d -> bat_ok b ks -> db_len db <= length (db_buf db) ->
  Forall (fun k => is_Some (t_cols (abs h d) !! k)) ks ->
  num_rows d * length ks <= len_after (length ks) (num_rows d) (db_len db) ->
  if decide (num_rows d = 0 \/ length ks = 0) then dense_body db b d h = Panic else
  exists db', dense_body db b d h = Ok ((t_num_rows f64_of_val (abs h d) ks, db'), h) /\ dense_ok db' ks /\
    db_len db' = len_after (length ks) (num_rows d) (db_len db).
Proof.
  intros [m W] B Hl Fk Hn. unfold dense_body.
  assert (Hdim : length (b_columns b) = length ks) by (by rewrite (bo_cols _ _ B), fmap_length).
  rewrite Hdim. cbv zeta. fold (len_after (length ks) (num_rows d) (db_len db)).
  set (missing := Z.to_nat _). set (len := len_after _ _ _) in *.
  set (buf := if decide (missing = 0) then _ else _).
  assert (Hbuf : len <= length buf).
  { unfold buf, len, len_after. fold missing. case_decide; [lia|]. by apply grow_data_length. }
  assert (Fm : Forall (fun k => is_Some (mp h (r_maps (d_raw d)) !! k)) ks).
  { eapply Forall_impl; [exact Fk|]. intros a Ha. cbv beta in Ha |- *. by rewrite abs_cols_lookup, fmap_is_Some in Ha. }
  destruct (dense_columns_spec h d m b ks KFloat len W B Fm Hn (b_f b) buf) as (b1 & E1 & L1 & G1).
  { rewrite (bo_f _ _ B). apply kpos_nodup. } { intros x. rewrite (bo_f _ _ B). by rewrite elem_of_kpos. } { done. }
  rewrite (bind_eq _ _ _ _ _ E1).
  destruct (dense_columns_spec h d m b ks KInt len W B Fm Hn (b_i b) b1) as (b2 & E2 & L2 & G2).
  { rewrite (bo_i _ _ B). apply kpos_nodup. } { intros x. rewrite (bo_i _ _ B). by rewrite elem_of_kpos. } { lia. }
  rewrite (bind_eq _ _ _ _ _ E2).
  destruct (dense_columns_spec h d m b ks KBool len W B Fm Hn (b_b b) b2) as (b3 & E3 & L3 & G3).
  { rewrite (bo_b _ _ B). apply kpos_nodup. } { intros x. rewrite (bo_b _ _ B). by rewrite elem_of_kpos. } { lia. }
  rewrite (bind_eq _ _ _ _ _ E3).
  destruct (decide (num_rows d = 0 \/ length ks = 0)) as [H0|H0].
  { rewrite decide_True by tauto. done. }
  rewrite decide_False by (intros [?|[?|?]]; [tauto|tauto|lia]).
  exists (Dense (db_cols db) (Some b) b3 len). split; [|split; [split; [by exists b|simpl; lia]|done]].
  unfold ret. do 3 f_equal. unfold t_num_rows. change (t_rows (abs h d)) with (num_rows d).
  apply list_fmap_ext. intros j i Hi. apply lookup_seq in Hi as [-> Hi]. rewrite Nat.add_0_l. unfold t_num_row.
  apply list_eq. intros y. rewrite !list_lookup_fmap.
  destruct (ks !! y) as [a|] eqn:Ey.
  - pose proof (lookup_lt_Some _ _ _ Ey). rewrite lookup_seq_lt by done. cbn [fmap option_fmap option_map]. f_equal.
    rewrite Nat.add_0_l. rewrite (G3 y j Hi), (G2 y j Hi), (G1 y j Hi), Ey. cbn [fmap option_fmap option_map].
    pose proof (bo_num _ _ B) as Hno. rewrite Forall_lookup in Hno. specialize (Hno _ _ Ey).
    rewrite (bo_b _ _ B), (bo_i _ _ B), (bo_f _ _ B).
    assert (Hk : forall k, y ∈ kpos k ks <-> a.1 = k).
    { intros k. rewrite elem_of_kpos. split; [intros (a' & ? & <-); congruence|eauto]. }
    destruct (decide (y ∈ kpos KBool ks)) as [|N1]; [done|]. destruct (decide (y ∈ kpos KInt ks)) as [|N2]; [done|].
    destruct (decide (y ∈ kpos KFloat ks)) as [|N3]; [done|]. rewrite Hk in N1, N2, N3. by destruct a as [[] ?].
  - rewrite lookup_seq_ge; [done|]. by apply lookup_ge_None in Ey.
Qed.
Lemma dense_matrix_body db d b h : (match db_bat db with Some b => ret b | None => batch_init d (db_cols db) end) h = Ok (b, h) ->
  dense_matrix db d h = dense_body db b d h.
Proof. intros E. unfold dense_matrix. by rewrite (bind_eq _ _ _ _ _ E). Qed.

Lemma dense_later h d db ks : wf h d -> dense_ok db ks -> Forall (fun k => is_Some (t_cols (abs h d) !! k)) ks ->
  num_rows d * length ks <= len_after (length ks) (num_rows d) (db_len db) ->
  if decide (num_rows d = 0 \/ length ks = 0) then dense_matrix db d h = Panic else
  exists db', dense_matrix db d h = Ok ((t_num_rows f64_of_val (abs h d) ks, db'), h) /\ dense_ok db' ks /\
    db_len db' = len_after (length ks) (num_rows d) (db_len db).
Proof.
  intros W [(b & Hb & B) Hl] Fk Hn. rewrite (dense_matrix_body db d b h) by (by rewrite Hb).
  by apply dense_body_spec.
Qed.
Lemma dense_first h d cols : wf h d ->
  match num_keys (abs h d) cols with
  | None => dense_matrix (new_dense cols) d h = Panic
  | Some ks =>
    if decide (num_rows d = 0 \/ length ks = 0) then dense_matrix (new_dense cols) d h = Panic else
    exists db', dense_matrix (new_dense cols) d h = Ok ((t_num_rows f64_of_val (abs h d) ks, db'), h) /\ dense_ok db' ks /\
      db_len db' = num_rows d * length ks
  end.
Proof.
  intros W. pose proof (batch_init_spec h d cols) as H.
  destruct (batch_init d cols h) as [[b h']|] eqn:Eb.
  - destruct H as (-> & ks & Hk & B). rewrite Hk. destruct (num_keys_spec _ _ _ Hk) as (_ & _ & Fk).
    rewrite (dense_matrix_body _ d b h) by done.
    assert (Hla : len_after (length ks) (num_rows d) (db_len (new_dense cols)) = num_rows d * length ks).
    { unfold len_after, new_dense. simpl. lia. }
    pose proof (dense_body_spec h d b ks (new_dense cols) W B) as D. rewrite Hla in D. apply D; [simpl; lia|done|lia].
  - rewrite H. unfold dense_matrix. simpl. unfold bind. by rewrite Eb.
Qed.

(** Several calls with one Dense64Batching. *)
Fixpoint run_dense (db : dense) (ds : list dframe) : M (list (list (list f64))) :=
  match ds with
  | [] => ret []
  | d :: ds => let* r := dense_matrix db d in let* rs := run_dense r.2 ds in ret (r.1 :: rs)
  end.
Lemma run_dense_spec h ks n0 : ks <> [] -> forall ds db, dense_ok db ks -> n0 * length ks <= db_len db ->
  Forall (fun d => wf h d /\ 0 < num_rows d /\ Forall (fun k => is_Some (t_cols (abs h d) !! k)) ks /\
                   (num_rows d <= n0 \/ length ks = 1)) ds ->
  run_dense db ds h = Ok ((fun d => t_num_rows f64_of_val (abs h d) ks) <$> ds, h).
Proof.
  intros Hk. assert (0 < length ks) by (destruct ks; [done|simpl; lia]).
  induction ds as [|d ds IH]; intros db D Hl F; [done|].
  apply Forall_cons in F as [(W & Hr & Fk & Hle) F]. cbn [run_dense].
  pose proof (dense_later h d db ks W D Fk) as L.
  rewrite decide_False in L by lia.
  destruct L as (db' & E & D' & Hl').
  { unfold len_after. destruct Hle as [Hle|Hle]; [nia|]. rewrite Hle. lia. }
  rewrite (bind_eq _ _ _ _ _ E).
  rewrite (bind_eq _ _ _ _ _ (IH db' D' ltac:(rewrite Hl'; unfold len_after; lia) F)). done.
Qed.
End batch.
