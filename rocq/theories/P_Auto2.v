(** AutoPreprocessor: tables. *)
From Verif Require Export P_Auto P_ReadMain.

Lemma bind_inv {A B} (m : M A) (f : A -> M B) h y h' : (let* x := m in f x) h = Ok (y, h') ->
  exists x h1, m h = Ok (x, h1) /\ f x h1 = Ok (y, h').
Proof. unfold bind. destruct (m h) as [[x h1]|]; [|done]. eauto. Qed.

(** The table an encoder makes is unique. *)
Lemma encoded_unique opt t0 e t Y1 Y2 : fitted opt t0 e -> t_ok t -> (forall c, c ∈ en_cats e -> is_Some (t_cols t !! (KInt, c))) ->
  encoded e t Y1 -> encoded e t Y2 -> Y1 = Y2.
Proof.
  intros HF Hok Hc E1 E2.
  destruct Y1 as [r1 c1 s1 e1 u1], Y2 as [r2 c2 s2 e2 u2].
  pose proof (ec_rows _ _ _ E1) as A1. pose proof (ec_rows _ _ _ E2) as A2.
  pose proof (ec_rest _ _ _ E1) as (B1 & B2 & B3). pose proof (ec_rest _ _ _ E2) as (B1' & B2' & B3').
  simpl in *. subst. f_equal. apply map_eq. intros k.
  destruct (decide (k.1 <> KBool \/ k.2 ∉ en_new e)) as [Hk|Hk].
  { pose proof (ec_others _ _ _ E1 k Hk) as F1. pose proof (ec_others _ _ _ E2 k Hk) as F2. simpl in *. congruence. }
  assert (k.1 = KBool /\ k.2 ∈ en_new e) as [Hk1 Hk2].
  { split; [destruct (decide (k.1 = KBool)); [done|]|destruct (decide (k.2 ∈ en_new e)); [done|]]; exfalso; apply Hk; auto. }
  clear Hk. destruct k as [k n]. simpl in *. subst k.
  destruct (ec_new _ _ _ E1 n Hk2) as (x1 & Hx1 & L1). destruct (ec_new _ _ _ E2 n Hk2) as (x2 & Hx2 & L2). simpl in *.
  rewrite Hx1, Hx2. f_equal. apply list_eq. intros j.
  destruct (proj1 (ft_new _ _ _ HF n) Hk2) as (c & Hcc & Hcr).
  destruct (decide (j < t_rows t)) as [Hj|Hj].
  2:{ rewrite !lookup_ge_None_2 by lia. done. }
  destruct (Hc c Hcc) as [x Hx]. assert (exists z, t_ints t c !! j = Some z) as [z Hz].
  { unfold t_ints. rewrite Hx. simpl. rewrite list_lookup_fmap. destruct (Hok _ _ Hx) as [Hl _].
    destruct (lookup_lt_is_Some_2 x j) as [v Hv]; [lia|]. rewrite Hv. by eexists. }
  destruct (ec_flags _ _ _ E1 c n j z Hcc Hcr Hz) as (y1 & b1 & Hy1 & Hb1 & Hi1).
  destruct (ec_flags _ _ _ E2 c n j z Hcc Hcr Hz) as (y2 & b2 & Hy2 & Hb2 & Hi2). simpl in *.
  assert (y1 = x1) by congruence. assert (y2 = x2) by congruence. subst. rewrite Hb1, Hb2.
  destruct b1, b2; try done; exfalso.
  - assert (false = true) by (apply Hi2, Hi1; done). done.
  - assert (false = true) by (apply Hi1, Hi2; done). done.
Qed.

Section comm.
Context (n : nat -> nat) (F : gset string) (g : string -> f64 -> f64).
Notation U := (t_update_n n F g).
Lemma encoded_update e t Y : encoded e t Y -> encoded e (U t) (U Y).
Proof.
  intros [A1 A2 A3 A4 A5]. split; [done|done| | |].
  - intros c m j z Hc Hm Hz. assert (Hz' : t_ints t c !! j = Some z).
    { unfold t_ints in *. rewrite t_update_n_other in Hz by (by left). done. }
    destruct (A3 c m j z Hc Hm Hz') as (col & b & H1 & H2). exists col, b. split; [|done].
    rewrite t_update_n_other by (by left). done.
  - intros m Hm. destruct (A4 m Hm) as (col & H1 & H2). exists col. rewrite t_update_n_other by (by left). done.
  - intros k Hk. specialize (A5 k Hk).
    destruct (decide (k.1 = KFloat /\ k.2 ∈ F)) as [[H1 H2]|Hn].
    + destruct k as [k c]. cbn [fst snd] in *. subst k. rewrite !t_update_n_in by done. rewrite A5. by destruct (decide _).
    + assert (k.1 <> KFloat \/ k.2 ∉ F).
      { destruct (decide (k.1 = KFloat)); [|by left]. right. intros Hx. apply Hn. done. }
      rewrite !t_update_n_other by done. done.
Qed.
Lemma hash_update cols t : (forall c, c ∈ cols -> is_Some (t_cols t !! (KObj, c))) -> t_hash cols (U t) = U (t_hash cols t).
Proof.
  intros Hc. assert (Hc' : forall c, c ∈ cols -> is_Some (t_cols (U t) !! (KObj, c))).
  { intros c Hin. apply t_update_n_dom. by apply Hc. }
  assert (E : t_cols (t_hash cols (U t)) = t_cols (U (t_hash cols t))).
  { apply map_eq. intros [k c]. rewrite C24_hashed_columns_main by done.
    destruct (decide (k = KFloat /\ c ∈ F)) as [[-> H2]|Hn].
    - rewrite (t_update_n_in _ _ _ (t_hash cols t)) by done. rewrite C24_hashed_columns_main by done. destruct (decide (c ∈ cols)); [done|]. by rewrite t_update_n_in.
    - assert (HH : k <> KFloat \/ c ∉ F).
      { destruct (decide (k = KFloat)); [|by left]. right. intros Hx. by apply Hn. }
      rewrite (t_update_n_other _ _ _ (t_hash cols t)) by done. rewrite C24_hashed_columns_main by done.
      destruct (decide (c ∈ cols)).
      + destruct k; try done. rewrite t_update_n_other by (by left). done.
      + by rewrite t_update_n_other. }
  unfold t_hash, t_update_n, t_with_cols in *. cbn [t_rows t_cols t_strs t_enc t_cpu] in *. f_equal; [exact E|].
  apply set_eq. intros c. rewrite !elem_of_filter.
  pose proof (t_update_n_dom n F g t (KObj, c)) as HX. unfold t_update_n, t_with_cols in HX. simpl in HX. tauto.
Qed.
End comm.

Lemma repeat_idem n f (col : list val) : (forall x, f (f x) = f x) -> (forall j, j < length col -> 1 <= n j) -> Forall (fun v => kind_of v = KFloat) col ->
  repeat_floats n f col = on_floats f col.
Proof.
  intros Hf Hn Hk. unfold repeat_floats, on_floats. apply list_eq. intros j. rewrite list_lookup_imap, list_lookup_fmap.
  destruct (col !! j) as [v|] eqn:E; [|done]. simpl. do 2 f_equal.
  specialize (Hn j (lookup_lt_Some _ _ _ E)). destruct (n j) as [|m]; [lia|]. by apply iter_idem.
Qed.
Lemma t_update_n_idem n F g t : t_ok t -> (forall c x, g c (g c x) = g c x) -> (forall j, j < t_rows t -> 1 <= n j) ->
  t_update_n n F g t = t_update F g t.
Proof.
  intros Hok Hg Hn. unfold t_update_n, t_update. f_equal. apply map_eq. intros k. rewrite !map_lookup_imap.
  destruct (t_cols t !! k) as [col|] eqn:E; [|done]. simpl. destruct (decide _) as [[H1 H2]|]; [|done]. f_equal.
  destruct (Hok _ _ E) as [Hl Hk]. apply repeat_idem; [apply Hg|rewrite Hl; apply Hn|by rewrite H1 in Hk].
Qed.
Lemma t_update_n_ext n F g g' t : (forall c x, g c x = g' c x) -> t_update_n n F g t = t_update_n n F g' t.
Proof.
  intros Hg. unfold t_update_n. f_equal. apply map_eq. intros k. rewrite !map_lookup_imap.
  destruct (t_cols t !! k) as [col|] eqn:E; [|done]. simpl. destruct (decide _); [|done]. f_equal.
  unfold repeat_floats. apply imap_ext. intros j v _. simpl. f_equal.
  induction (n j) as [|m IH]; [done|]. change (g k.2 (Nat.iter m (g k.2) (the_float v)) = g' k.2 (Nat.iter m (g' k.2) (the_float v))).
  by rewrite IH, Hg.
Qed.
Lemma impute_idem f c x : impute_with f c (impute_with f c x) = impute_with f c x.
Proof. unfold impute_with. destruct (decide (x = S754_nan)) as [->|Hx]; repeat case_decide; done. Qed.
