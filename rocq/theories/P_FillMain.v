(** fillBlanks: the main lemmas of C103. *)
From Verif Require Import M_Fill M_Check.
From Verif Require Export P_ReadMain P_ConsMain.
From Verif Require Import P_Builder P_View2.
From stdpp Require Import strings list.
From Verif Require Import Spec_Fill P_Base P_Check.

Section fill.
Context {rt : GoRT}.

Lemma names_built h0 h r b k c : built h0 h r b -> c ∈ names_of k (mp h (r_maps r)) <-> is_Some (bs_cols b !! (k, c)).
Proof.
  intros Bu. destruct (built_raw_ok _ _ _ _ Bu) as [_ <-]. rewrite elem_of_names_of. unfold raw_cols.
  rewrite lookup_fmap. split; [intros [s ->]; by eexists|]. intros [x Hx].
  destruct (mp h (r_maps r) !! (k, c)) as [s|]; [by eexists|done].
Qed.
Lemma lacks_size h0 h r b k : built h0 h r b -> size (names_of k (mp h (r_maps r))) = 0 <-> lacks b k.
Proof.
  intros Bu. split.
  - intros H%size_empty_inv c. apply eq_None_not_Some. rewrite <- (names_built _ _ _ _ _ _ Bu). set_solver.
  - intros H. apply size_empty_iff. intros c. rewrite (names_built _ _ _ _ _ _ Bu), (H c). split; [by intros [? ?]|set_solver].
Qed.
Lemma strings_size h0 h r b n : built h0 h r b -> even_rows b n ->
  size (names_of KObj (mp h (r_maps r))) = size (ostr h (r_strs r)) <-> all_strings b.
Proof.
  intros Bu [_ _ Hs]. rewrite (bu_strs _ _ _ _ Bu). set (N := names_of KObj (mp h (r_maps r))).
  assert (HN : forall c, c ∈ N <-> is_Some (bs_cols b !! (KObj, c))) by (intros c; by apply (names_built _ _ _ _ _ _ Bu)).
  assert (Hsub : bs_strs b ⊆ N) by (intros c Hc; by apply HN, Hs).
  split.
  - intros E c Hc%HN. destruct (decide (c ∈ bs_strs b)) as [|Hn]; [done|exfalso].
    assert (Hsub2 : bs_strs b ⊆ N ∖ {[c]}) by set_solver.
    apply subseteq_size in Hsub2. rewrite size_difference in Hsub2 by set_solver. rewrite size_singleton in Hsub2.
    assert (size N <> 0) by (intros Hz%size_empty_inv; set_solver). lia.
  - intros Ha. assert (N ≡ bs_strs b) as ->; [|done]. intros c. split; [|by apply Hsub]. intros Hc%HN. by apply Ha.
Qed.

Lemma alt_mod {A} (x y : A) i : (if decide (i mod 2 = 0) then x else y) = alternate x y i.
Proof.
  unfold alternate. destruct (Nat.even i) eqn:E.
  - apply Nat.even_spec in E as [j ->]. rewrite decide_True; [done|]. rewrite Nat.mul_comm. by apply Nat.mod_mul.
  - rewrite decide_False; [done|]. intros H. apply Nat.mod_divides in H as [j ->]; [|lia].
    by rewrite Nat.even_mul in E.
Qed.
Lemma alt_bool i : bool_decide (i mod 2 = 0) = alternate true false i.
Proof. rewrite <- alt_mod. destruct (decide (i mod 2 = 0)); [by apply bool_decide_eq_true_2|by apply bool_decide_eq_false_2]. Qed.
Lemma seq_values {A} (f : nat -> A) n vs : length vs = n /\ (forall i v, vs !! i = Some v -> v = f i) <-> vs = f <$> seq 0 n.
Proof.
  split.
  - intros [Hl H]. apply list_eq. intros i. rewrite list_lookup_fmap. destruct (vs !! i) as [v|] eqn:E.
    + rewrite lookup_seq_lt by (apply lookup_lt_Some in E; lia). simpl. f_equal. by apply H.
    + rewrite lookup_seq_ge by (apply lookup_ge_None in E; lia). done.
  - intros ->. split; [by rewrite fmap_length, seq_length|]. intros i v. rewrite list_lookup_fmap.
    intros (j & Hj & ->)%fmap_Some. apply lookup_seq in Hj as [-> _]. done.
Qed.

Lemma fill_kind_spec h0 h r b k c vs : built h0 h r b -> Forall (fun v => kind_of v = k) vs ->
  exists h' b', fill_kind k c vs r h = Ok (r, h') /\ built h0 h' r b' /\ bs_strs b' = bs_strs b /\ bs_enc b' = bs_enc b /\
    (forall k' vs', bs_cols b' !! k' = Some vs' <-> bs_cols b !! k' = Some vs' \/ (k' = (k, c) /\ lacks b k /\ vs' = vs)).
Proof.
  intros Bu F. unfold fill_kind. rewrite (bind_eq _ _ h (mp h (r_maps r)) h) by done.
  pose proof (lacks_size _ _ _ _ k Bu) as HL. case_decide as D.
  - apply HL in D. destruct (b_add_spec h0 h r b k c vs Bu F) as (h' & E & B'). exists h'. eexists.
    split; [done|]. split; [done|]. do 2 (split; [done|]). intros k' vs'. simpl. rewrite (D c). simpl.
    destruct (decide (k' = (k, c))) as [->|Hn].
    + rewrite lookup_insert, (D c). naive_solver.
    + rewrite lookup_insert_ne by done. naive_solver.
  - exists h, b. split; [done|]. split; [done|]. do 2 (split; [done|]). intros k' vs'. rewrite HL in D. naive_solver.
Qed.
Lemma fill_objects_spec h0 h r b ids n : built h0 h r b -> even_rows b n ->
  exists h' b', fill_objects ids n r h = Ok (r, h') /\ built h0 h' r b' /\ bs_strs b' = bs_strs b /\ bs_enc b' = bs_enc b /\
    ((all_strings b /\ bs_cols b' = <[(KObj, "SomeObjects") := default [] (bs_cols b !! (KObj, "SomeObjects")) ++ (some_object ids <$> seq 0 n)]> (bs_cols b)) \/
     (~ all_strings b /\ b' = b)).
Proof.
  intros Bu Er. unfold fill_objects. rewrite (bind_eq _ _ h (mp h (r_maps r)) h) by done.
  rewrite (bind_eq _ _ h (ostr h (r_strs r)) h) by done.
  pose proof (strings_size _ _ _ _ _ Bu Er) as HL. case_decide as D.
  - apply HL in D. destruct (b_add_spec h0 h r b KObj "SomeObjects" (some_object ids <$> seq 0 n) Bu) as (h' & E & B').
    { apply Forall_fmap, Forall_forall. intros i _. unfold some_object. simpl. by case_decide. }
    exists h'. eexists. split; [done|]. split; [done|]. do 2 (split; [done|]). by left.
  - exists h, b. do 4 (split; [done|]). right. by rewrite HL in D.
Qed.
Lemma fill_strings_spec h0 h r b n : built h0 h r b ->
  exists r' h' b', fill_strings n r h = Ok (r', h') /\ built h0 h' r' b' /\ bs_enc b' = bs_enc b /\ r_cpu r' = r_cpu r /\
    ((bs_strs b = ∅ /\ bs_strs b' = {["SomeStrings"]} /\ bs_cols b' = <[(KObj, "SomeStrings") := default [] (bs_cols b !! (KObj, "SomeStrings")) ++ ((fun i => VObj (OStr (some_string i))) <$> seq 0 n)]> (bs_cols b)) \/
     (bs_strs b <> ∅ /\ b' = b)).
Proof.
  intros Bu. unfold fill_strings. rewrite (bind_eq _ _ h (ostr h (r_strs r)) h) by done. rewrite (bu_strs _ _ _ _ Bu).
  case_decide as D.
  - apply size_empty_inv, leibniz_equiv in D.
    destruct (run_bop_spec h0 h r b (BAddStrings "SomeStrings" (some_string <$> seq 0 n)) Bu I) as (r' & h' & E & B' & Hc).
    exists r', h'. eexists. split; [exact E|]. split; [exact B'|]. split; [done|]. split; [done|]. left. split; [done|].
    simpl. rewrite D. split; [set_solver|]. by rewrite <- list_fmap_compose.
  - exists r, h, b. do 4 (split; [done|]). right. split; [|done]. intros E. rewrite E in D. by rewrite size_empty in D.
Qed.

(** The last four steps, from a builder in state [b]. *)
Definition fill_tail (ord : gmap key slice -> list (key * slice)) (rows : nat) (r : raw) : M dframe :=
  let* r := fill_kind KInt "SomeInts" (some_int <$> seq 0 rows) r in
  let* r := fill_kind KBool "SomeBools" (some_bool <$> seq 0 rows) r in
  let* r := fill_kind KFloat "SomeFloats" (some_float rows <$> seq 0 rows) r in
  let* m := get_mp (r_maps r) in to_dataframe_ord (ord m) r.
Definition tail_cols (b : bstate) (n : nat) (k : key) (vs : list val) : Prop :=
  bs_cols b !! k = Some vs \/
  (k = (KInt, "SomeInts") /\ lacks b KInt /\ vs = some_int <$> seq 0 n) \/
  (k = (KBool, "SomeBools") /\ lacks b KBool /\ vs = some_bool <$> seq 0 n) \/
  (k = (KFloat, "SomeFloats") /\ lacks b KFloat /\ vs = some_float n <$> seq 0 n).

Lemma lacks_step (b b' : bstate) k c vs k2 : k2 <> k ->
  (forall k' vs', bs_cols b' !! k' = Some vs' <-> bs_cols b !! k' = Some vs' \/ (k' = (k, c) /\ lacks b k /\ vs' = vs)) ->
  lacks b' k2 <-> lacks b k2.
Proof.
  intros Hn H. split; intros L x.
  - destruct (bs_cols b !! (k2, x)) as [v|] eqn:E; [|done]. specialize (L x). assert (bs_cols b' !! (k2, x) = Some v) by (apply H; by left). congruence.
  - destruct (bs_cols b' !! (k2, x)) as [v|] eqn:E; [|done]. apply H in E as [E|[[= ?] _]]; [by rewrite (L x) in E|done].
Qed.
Lemma seq_kind (f : nat -> val) n k : (forall i, kind_of (f i) = k) -> Forall (fun v => kind_of v = k) (f <$> seq 0 n).
Proof. intros H. apply Forall_fmap, Forall_forall. intros i _. apply H. Qed.

Lemma fill_tail_spec ord h0 h r b n : (forall m, ord m ≡ₚ map_to_list m) -> built h0 h r b ->
  match fill_tail ord n r h with
  | Ok (d, h') => wf h' d /\ ext h0 h' /\
      (forall k vs, t_cols (abs h' d) !! k = Some vs <-> tail_cols b n k vs) /\
      (forall k vs, tail_cols b n k vs -> length vs = t_rows (abs h' d)) /\
      t_strs (abs h' d) = bs_strs b /\ t_enc (abs h' d) = bs_enc b
  | Panic => exists k1 k2 v1 v2, tail_cols b n k1 v1 /\ tail_cols b n k2 v2 /\ length v1 <> length v2
  end.
Proof.
  intros Ho B0. unfold fill_tail.
  destruct (fill_kind_spec h0 h r b KInt "SomeInts" (some_int <$> seq 0 n) B0) as (h1 & b1 & E1 & B1 & S1 & N1 & C1); [by apply seq_kind|].
  rewrite (bind_eq _ _ _ _ _ E1).
  destruct (fill_kind_spec h0 h1 r b1 KBool "SomeBools" (some_bool <$> seq 0 n) B1) as (h2 & b2 & E2 & B2 & S2 & N2 & C2); [by apply seq_kind|].
  rewrite (bind_eq _ _ _ _ _ E2).
  destruct (fill_kind_spec h0 h2 r b2 KFloat "SomeFloats" (some_float n <$> seq 0 n) B2) as (h3 & b3 & E3 & B3 & S3 & N3 & C3); [by apply seq_kind|].
  rewrite (bind_eq _ _ _ _ _ E3). rewrite (bind_eq _ _ h3 (mp h3 (r_maps r)) h3) by done.
  assert (HC : forall k vs, bs_cols b3 !! k = Some vs <-> tail_cols b n k vs).
  { intros k vs. rewrite C3, C2, C1. unfold tail_cols.
    rewrite (lacks_step b b1 KInt _ _ KBool ltac:(done) C1).
    rewrite (lacks_step b1 b2 KBool _ _ KFloat ltac:(done) C2), (lacks_step b b1 KInt _ _ KFloat ltac:(done) C1). tauto. }
  destruct (built_raw_ok _ _ _ _ B3) as [Hok Hcols].
  pose proof (to_dataframe_ord_spec h3 r (ord (mp h3 (r_maps r))) Hok (bu_str _ _ _ _ B3) (Ho _)) as T.
  destruct (to_dataframe_ord _ r h3) as [[d h4]|].
  - destruct T as (n' & Hl & _ & W & X & _ & _ & A). rewrite A. cbn [t_rows t_cols t_strs t_enc].
    split; [done|]. split; [eapply ext_trans; [apply B3|done]|]. rewrite Hcols in *. split; [done|].
    split; [intros k vs H%HC; by apply (Hl k)|]. rewrite (bu_strs _ _ _ _ B3), (bu_enc _ _ _ _ B3). split; congruence.
  - destruct T as (k1 & k2 & v1 & v2 & H1 & H2 & Hne). rewrite Hcols in *. exists k1, k2, v1, v2. by rewrite <- !HC.
Qed.

(** The whole of fillBlanks up to the fourth step. *)
Lemma fill_head ord ids h0 h r b n : (forall m, ord m ≡ₚ map_to_list m) -> built h0 h r b -> even_rows b n ->
  exists r' h' b', fill_blanks ord ids r h = fill_tail ord n r' h' /\ built h0 h' r' b' /\ bs_enc b' = bs_enc b /\
    (forall c, c ∈ bs_strs b' <-> c ∈ bs_strs b \/ (bs_strs b = ∅ /\ c = "SomeStrings")) /\
    (forall k vs, bs_cols b' !! k = Some vs <->
       (bs_cols b !! k = Some vs /\ ~ (k = (KObj, "SomeObjects") /\ all_strings b) /\ ~ (k = (KObj, "SomeStrings") /\ bs_strs b = ∅)) \/
       (k = (KObj, "SomeObjects") /\ all_strings b /\ vs = default [] (bs_cols b !! k) ++ (some_object ids <$> seq 0 n)) \/
       (k = (KObj, "SomeStrings") /\ bs_strs b = ∅ /\ vs = default [] (bs_cols b !! k) ++ ((fun i => VObj (OStr (some_string i))) <$> seq 0 n))).
Proof.
  intros Ho B0 Er. unfold fill_blanks. rewrite (bind_eq _ _ h (mp h (r_maps r)) h) by done. cbv zeta.
  assert (nar_ord (ord (mp h (r_maps r))) = n) as ->.
  { destruct (built_raw_ok _ _ _ _ B0) as [[_ Hok] Hcols].
    destruct (nar_ord_in _ _ (Ho (mp h (r_maps r)))) as [[Hm ->]|(k & s & Hs & ->)].
    - symmetry. apply (er_none _ _ Er). rewrite <- Hcols. unfold raw_cols. by rewrite Hm, fmap_empty.
    - assert (Hv : bs_cols b !! k = Some (sl_vals h s)) by (rewrite <- Hcols; unfold raw_cols; by rewrite lookup_fmap, Hs).
      rewrite <- (er_len _ _ Er _ _ Hv). symmetry. eapply col_ok_vals_length. by apply (Hok k s Hs). }
  destruct (fill_objects_spec h0 h r b ids n B0 Er) as (h1 & b1 & E1 & B1 & S1 & N1 & C1).
  rewrite (bind_eq _ _ _ _ _ E1).
  destruct (fill_strings_spec h0 h1 r b1 n B1) as (r2 & h2 & b2 & E2 & B2 & N2 & _ & C2).
  rewrite (bind_eq _ _ _ _ _ E2). exists r2, h2, b2. split; [done|]. split; [done|]. split; [congruence|].
  split.
  { intros c. destruct C2 as [(H1 & -> & _)|[H1 ->]]; rewrite S1 in *; [|naive_solver]. rewrite H1. set_solver. }
  assert (HO : forall k vs, bs_cols b1 !! k = Some vs <->
     (bs_cols b !! k = Some vs /\ ~ (k = (KObj, "SomeObjects") /\ all_strings b)) \/
     (k = (KObj, "SomeObjects") /\ all_strings b /\ vs = default [] (bs_cols b !! k) ++ (some_object ids <$> seq 0 n))).
  { intros k vs. destruct C1 as [[Ha ->]|[Ha ->]]; [|naive_solver].
    destruct (decide (k = (KObj, "SomeObjects"))) as [->|Hn].
    - rewrite lookup_insert. naive_solver.
    - rewrite lookup_insert_ne by done. naive_solver. }
  assert (HS : bs_cols b1 !! (KObj, "SomeStrings") = bs_cols b !! (KObj, "SomeStrings")).
  { destruct C1 as [[_ ->]|[_ ->]]; [|done]. by rewrite lookup_insert_ne. }
  intros k vs. rewrite S1 in C2. destruct C2 as [(H1 & _ & ->)|[H1 ->]].
  - destruct (decide (k = (KObj, "SomeStrings"))) as [->|Hn].
    + rewrite lookup_insert, HS. naive_solver.
    + rewrite lookup_insert_ne by done. rewrite HO. naive_solver.
  - rewrite HO. naive_solver.
Qed.

Definition run_fill ord ids os : M dframe := let* r := new_raw in let* r := run_bops r os in fill_blanks ord ids r.

Lemma fill_core ord ids os h n : (forall m, ord m ≡ₚ map_to_list m) -> Forall bop_typed os ->
  let b := foldl spec_bop (BState ∅ ∅ None) os in even_rows b n ->
  exists r' h' b', run_fill ord ids os h = fill_tail ord n r' h' /\ built h h' r' b' /\ bs_enc b' = bs_enc b /\
    (forall c, c ∈ bs_strs b' <-> c ∈ bs_strs b \/ (bs_strs b = ∅ /\ c = "SomeStrings")) /\
    (forall k vs, bs_cols b' !! k = Some vs <->
       (bs_cols b !! k = Some vs /\ ~ (k = (KObj, "SomeObjects") /\ all_strings b) /\ ~ (k = (KObj, "SomeStrings") /\ bs_strs b = ∅)) \/
       (k = (KObj, "SomeObjects") /\ all_strings b /\ vs = default [] (bs_cols b !! k) ++ (some_object ids <$> seq 0 n)) \/
       (k = (KObj, "SomeStrings") /\ bs_strs b = ∅ /\ vs = default [] (bs_cols b !! k) ++ ((fun i => VObj (OStr (some_string i))) <$> seq 0 n))).
Proof.
  intros Ho F b Er. destruct (new_raw_built h) as (r0 & h0 & E0 & B0 & _).
  destruct (run_bops_spec h os h0 r0 _ B0 F) as (r & h1 & E & B & _). unfold run_fill.
  rewrite (bind_eq _ _ _ _ _ E0), (bind_eq _ _ _ _ _ E). by apply fill_head.
Qed.

Lemma lacks_head (b b' : bstate) k : k <> KObj ->
  (forall k' vs, k'.1 <> KObj -> bs_cols b' !! k' = Some vs <-> bs_cols b !! k' = Some vs) -> lacks b' k <-> lacks b k.
Proof.
  intros Hk H. split; intros L x.
  - destruct (bs_cols b !! (k, x)) as [v|] eqn:E; [|done]. apply H in E; [|done]. by rewrite (L x) in E.
  - destruct (bs_cols b' !! (k, x)) as [v|] eqn:E; [|done]. apply H in E; [|done]. by rewrite (L x) in E.
Qed.
Lemma C103_fill_main ord ids os h n : (forall m, ord m ≡ₚ map_to_list m) -> Forall bop_typed os ->
  let b := foldl spec_bop (BState ∅ ∅ None) os in even_rows b n -> free_names b ->
  exists d h', (let* r := new_raw in let* r := run_bops r os in fill_blanks ord ids r) h = Ok (d, h') /\ wf h' d /\ preserved h h' /\
    let t := abs h' d in t_rows t = n /\ t_enc t = bs_enc b /\
    (forall k vs, t_cols t !! k = Some vs <-> bs_cols b !! k = Some vs \/ added ids n b k vs) /\
    (forall c, c ∈ t_strs t <-> c ∈ bs_strs b \/ (bs_strs b = ∅ /\ c = "SomeStrings")) /\
    (forall k, exists c, is_Some (t_cols t !! (k, c))) /\
    (exists c, c ∈ t_strs t /\ is_Some (t_cols t !! (KObj, c))) /\
    (exists c, c ∉ t_strs t /\ is_Some (t_cols t !! (KObj, c))).
Proof.
  intros Ho F b Er [F1 F2]. destruct (fill_core ord ids os h n Ho F Er) as (r' & h' & b' & E & B & HE & HS & HC).
  fold b in HE, HS, HC. unfold run_fill in E. rewrite E.
  assert (HN : forall k' vs, k'.1 <> KObj -> bs_cols b' !! k' = Some vs <-> bs_cols b !! k' = Some vs).
  { intros k' vs Hk. rewrite HC. split; [intros [[? _]|[[-> _]|[-> _]]]; done|]. intros H. left. split; [done|]. split; intros [-> _]; done. }
  assert (HT : forall k vs, tail_cols b' n k vs <-> bs_cols b !! k = Some vs \/ added ids n b k vs).
  { intros k vs. unfold tail_cols, added. rewrite HC.
    rewrite !(lacks_head b b') by done.
    assert (G1 : (length vs = n /\ (forall i v, vs !! i = Some v -> v = alternate (VObj (OOther (ids i))) (VObj ONil) i)) <-> vs = some_object ids <$> seq 0 n).
    { rewrite <- (seq_values (some_object ids)). unfold some_object. split; intros [H1 H2]; (split; [done|]); intros i v Hv; rewrite (H2 i v Hv); by rewrite alt_mod. }
    assert (G2 : (length vs = n /\ (forall i v, vs !! i = Some v -> v = VObj (OStr (alternate "one" "two" i)))) <-> vs = (fun i => VObj (OStr (some_string i))) <$> seq 0 n).
    { rewrite <- (seq_values (fun i => VObj (OStr (some_string i)))). unfold some_string. split; intros [H1 H2]; (split; [done|]); intros i v Hv; rewrite (H2 i v Hv); by rewrite alt_mod. }
    assert (G3 : (length vs = n /\ (forall i v, vs !! i = Some v -> v = VInt (Z.of_nat i))) <-> vs = some_int <$> seq 0 n) by (by rewrite <- (seq_values some_int)).
    assert (G4 : (length vs = n /\ (forall i v, vs !! i = Some v -> v = VBool (alternate true false i))) <-> vs = some_bool <$> seq 0 n).
    { rewrite <- (seq_values some_bool). unfold some_bool. split; intros [H1 H2]; (split; [done|]); intros i v Hv; rewrite (H2 i v Hv); by rewrite alt_bool. }
    assert (G5 : (length vs = n /\ (forall i v, vs !! i = Some v -> v = VFloat (f64_div (f64_of_Z (Z.of_nat i)) (f64_of_Z (Z.of_nat n))))) <-> vs = some_float n <$> seq 0 n) by (by rewrite <- (seq_values (some_float n))).
    assert (D1 : all_strings b -> k = (KObj, "SomeObjects") -> bs_cols b !! k = None) by (intros Ha ->; by apply F1).
    assert (D2 : bs_strs b = ∅ -> k = (KObj, "SomeStrings") -> bs_cols b !! k = None) by (intros Ha ->; by apply F2).
    split.
    - intros [[(H & _)|[(Hk & Ha & Hv)|(Hk & Ha & Hv)]]|[H|[H|H]]]; [by left|right..].
      + rewrite (D1 Ha Hk) in Hv. simpl in Hv. apply G1 in Hv. tauto.
      + rewrite (D2 Ha Hk) in Hv. simpl in Hv. apply G2 in Hv. tauto.
      + rewrite <- G3 in H. tauto.
      + rewrite <- G4 in H. tauto.
      + rewrite <- G5 in H. tauto.
    - intros [H|[Hl [(Hk & Ha & Hv)|[(Hk & Ha & Hv)|[(Hk & Ha & Hv)|[(Hk & Ha & Hv)|(Hk & Ha & Hv)]]]]]].
      + left. left. split; [done|]. split; intros [Hk Ha]; [rewrite (D1 Ha Hk) in H|rewrite (D2 Ha Hk) in H]; done.
      + left. right. left. rewrite (D1 Ha Hk). simpl. by rewrite <- G1.
      + left. right. right. rewrite (D2 Ha Hk). simpl. by rewrite <- G2.
      + right. left. by rewrite <- G3.
      + right. right. left. by rewrite <- G4.
      + right. right. right. by rewrite <- G5. }
  assert (HL : forall k vs, tail_cols b' n k vs -> length vs = n).
  { intros k vs [H|[H _]]%HT; [by apply (er_len _ _ Er k)|done]. }
  pose proof (fill_tail_spec ord h h' r' b' n Ho B) as T. destruct (fill_tail ord n r' h') as [[d h2]|].
  2: { exfalso. destruct T as (k1 & k2 & v1 & v2 & H1 & H2 & Hne). apply Hne. by rewrite (HL _ _ H1), (HL _ _ H2). }
  destruct T as (W & X & TC & TL & TS & TE). exists d, h2. split; [done|]. split; [done|]. split; [by apply ext_preserved|].
  assert (HC2 : forall k vs, t_cols (abs h2 d) !! k = Some vs <-> bs_cols b !! k = Some vs \/ added ids n b k vs) by (intros k vs; by rewrite TC).
  assert (HS2 : forall c, c ∈ t_strs (abs h2 d) <-> c ∈ bs_strs b \/ (bs_strs b = ∅ /\ c = "SomeStrings")) by (intros c; by rewrite TS, HS).
  assert (AS : exists c, c ∈ t_strs (abs h2 d) /\ is_Some (t_cols (abs h2 d) !! (KObj, c))).
  { destruct (decide (bs_strs b = ∅)) as [Hz|Hz].
    - exists "SomeStrings". split; [apply HS2; by right|]. eexists. apply HC2. right.
      split; [|right; left; split; [done|]; split; [done|]; apply (proj2 (seq_values (fun i => VObj (OStr (alternate "one" "two" i))) n _) eq_refl)].
      by rewrite fmap_length, seq_length.
    - apply set_choose_L in Hz as [c Hc]. exists c. split; [apply HS2; by left|]. destruct (er_strs _ _ Er c Hc) as [vs Hv].
      exists vs. apply HC2. by left. }
  assert (AO : exists c, c ∉ t_strs (abs h2 d) /\ is_Some (t_cols (abs h2 d) !! (KObj, c))).
  { set (U := filter (fun c => c ∉ bs_strs b) (list_to_set (C := gset string) ((fun p => p.1.2) <$> filter (fun p => p.1.1 = KObj) (map_to_list (bs_cols b))))).
    assert (HU : forall c, c ∈ U <-> is_Some (bs_cols b !! (KObj, c)) /\ c ∉ bs_strs b).
    { intros c. unfold U. rewrite elem_of_filter, elem_of_list_to_set, elem_of_list_fmap. split.
      - intros [Hn ([[k x] vs] & -> & [Hk Hin]%elem_of_list_filter)]. split; [|done]. simpl in *. subst k.
        apply elem_of_map_to_list in Hin. by eexists.
      - intros [[vs Hv] Hn]. split; [done|]. exists ((KObj, c), vs). split; [done|]. apply elem_of_list_filter. split; [done|].
        by apply elem_of_map_to_list. }
    destruct (decide (U = ∅)) as [Hz|Hz].
    - assert (Ha : all_strings b).
      { intros c Hc. destruct (decide (c ∈ bs_strs b)) as [|Hn]; [done|]. assert (c ∈ U) by (by apply HU). set_solver. }
      exists "SomeObjects". split.
      + rewrite HS2. intros [Hin|[_ ?]]; [|done]. destruct (er_strs _ _ Er _ Hin) as [vs Hv]. by rewrite (F1 Ha) in Hv.
      + eexists. apply HC2. right.
        split; [|left; split; [done|]; split; [done|]; apply (proj2 (seq_values (fun i => alternate (VObj (OOther (ids i))) (VObj ONil) i) n _) eq_refl)].
        by rewrite fmap_length, seq_length.
    - apply set_choose_L in Hz as [c [[vs Hv] Hc]%HU]. exists c. split.
      + rewrite HS2. intros [?|[Hz ->]]; [done|]. by rewrite (F2 Hz) in Hv.
      + exists vs. apply HC2. by left. }
  assert (AK : forall k, exists c, is_Some (t_cols (abs h2 d) !! (k, c))).
  { intros k. destruct (decide (k = KObj)) as [->|Hk]; [destruct AS as (c & _ & H); by exists c|].
    destruct (decide (size (names_of k (mp h' (r_maps r'))) = 0)) as [Hz|Hz].
    - apply (lacks_size _ _ _ _ _ B) in Hz.
      destruct k; [done|exists "SomeFloats"|exists "SomeInts"|exists "SomeBools"]; eexists; apply TC.
      + right. right. right. done.
      + right. left. done.
      + right. right. left. done.
    - destruct (set_choose_L (names_of k (mp h' (r_maps r')))) as [c Hc].
      { intros E0. by rewrite E0, size_empty in Hz. }
      apply (names_built _ _ _ _ _ _ B) in Hc as [vs Hv]. exists c, vs. apply TC. by left. }
  cbv zeta. split; [|split; [congruence|done]].
  destruct (AK KInt) as [c [vs Hv]]. apply TC in Hv. by rewrite <- (TL _ _ Hv), (HL _ _ Hv).
Qed.

Lemma C103_clash_main ord ids os h n : (forall m, ord m ≡ₚ map_to_list m) -> Forall bop_typed os ->
  let b := foldl spec_bop (BState ∅ ∅ None) os in even_rows b n -> 0 < n ->
  (all_strings b /\ is_Some (bs_cols b !! (KObj, "SomeObjects"))) \/ (bs_strs b = ∅ /\ is_Some (bs_cols b !! (KObj, "SomeStrings"))) ->
  (let* r := new_raw in let* r := run_bops r os in fill_blanks ord ids r) h = Panic.
Proof.
  intros Ho F b Er Hn Hcl. destruct (fill_core ord ids os h n Ho F Er) as (r' & h' & b' & E & B & HE & HS & HC).
  fold b in HE, HS, HC. unfold run_fill in E. rewrite E.
  assert (exists k vs, bs_cols b' !! k = Some vs /\ length vs = n + n) as (k & vs & Hk & Hl).
  { destruct Hcl as [[Ha [v Hv]]|[Ha [v Hv]]].
    - eexists (KObj, "SomeObjects"), _. split; [apply HC; right; left; done|]. rewrite Hv. simpl.
      by rewrite app_length, fmap_length, seq_length, (er_len _ _ Er _ _ Hv).
    - eexists (KObj, "SomeStrings"), _. split; [apply HC; right; right; done|]. rewrite Hv. simpl.
      by rewrite app_length, fmap_length, seq_length, (er_len _ _ Er _ _ Hv). }
  assert (exists k2 v2, tail_cols b' n k2 v2 /\ length v2 = n) as (k2 & v2 & Hk2 & Hl2).
  { destruct (decide (size (names_of KInt (mp h' (r_maps r'))) = 0)) as [Hz|Hz].
    - apply (lacks_size _ _ _ _ _ B) in Hz. eexists (KInt, "SomeInts"), _. split; [right; left; done|]. by rewrite fmap_length, seq_length.
    - destruct (set_choose_L (names_of KInt (mp h' (r_maps r')))) as [c Hc].
      { intros E0. by rewrite E0, size_empty in Hz. }
      apply (names_built _ _ _ _ _ _ B) in Hc as [w Hw]. exists (KInt, c), w. split; [by left|].
      apply HC in Hw as [[Hw _]|[[? _]|[? _]]]; [|done|done]. by apply (er_len _ _ Er _ _ Hw). }
  pose proof (fill_tail_spec ord h h' r' b' n Ho B) as T. destruct (fill_tail ord n r' h') as [[d h2]|]; [exfalso|done].
  destruct T as (_ & _ & _ & TL & _). assert (Hk1 : tail_cols b' n k vs) by (by left).
  pose proof (TL _ _ Hk1). pose proof (TL _ _ Hk2). lia.
Qed.
End fill.

Definition fill_os : list bop := [BAdd KInt "a" [VInt 7; VInt 8; VInt 9]; BAddStrings "s" ["x"; "y"; "z"]].
Definition clash_os : list bop := [BAddStrings "SomeObjects" ["x"; "y"]].
Lemma key_in (b : bstate) (l : list (key * list val)) : bs_cols b = list_to_map l -> forall k vs, bs_cols b !! k = Some vs -> (k, vs) ∈ l.
Proof. intros -> k vs. apply elem_of_list_to_map_2. Qed.
Definition fill_l : list (key * list val) :=
  [((KObj, "s"), [VObj (OStr "x"); VObj (OStr "y"); VObj (OStr "z")]); ((KInt, "a"), [VInt 7; VInt 8; VInt 9])].
Lemma fill_b : foldl spec_bop (BState ∅ ∅ None) fill_os = BState (list_to_map fill_l) {["s"]} None.
Proof. cbn -[union insert]. f_equal. set_solver. Qed.
Definition clash_l : list (key * list val) := [((KObj, "SomeObjects"), [VObj (OStr "x"); VObj (OStr "y")])].
Lemma clash_b : foldl spec_bop (BState ∅ ∅ None) clash_os = BState (list_to_map clash_l) {["SomeObjects"]} None.
Proof. cbn -[union insert]. f_equal. set_solver. Qed.
Lemma C103_check_main : let b := foldl spec_bop (BState ∅ ∅ None) fill_os in let c := foldl spec_bop (BState ∅ ∅ None) clash_os in
  Forall bop_typed fill_os /\ even_rows b 3 /\ free_names b /\ all_strings b /\ lacks b KFloat /\
  Forall bop_typed clash_os /\ even_rows c 2 /\ all_strings c /\ is_Some (bs_cols c !! (KObj, "SomeObjects")).
Proof.
  cbv zeta. rewrite fill_b, clash_b.
  pose proof (key_in (BState (list_to_map fill_l) {["s"]} None) fill_l eq_refl) as KB.
  pose proof (key_in (BState (list_to_map clash_l) {["SomeObjects"]} None) clash_l eq_refl) as KC.
  assert (KN : forall k, k ∉ fill_l.*1 -> (list_to_map fill_l : gmap key (list val)) !! k = None) by (intros k; apply not_elem_of_list_to_map_1).
  split; [repeat constructor|]. split.
  { split.
    - intros k vs H%KB. unfold fill_l in H. rewrite !elem_of_cons in H. by destruct H as [[= -> ->]|[[= -> ->]|H%elem_of_nil]].
    - intros H. assert (E : bs_cols (BState (list_to_map fill_l) {["s"]} None) !! (KInt, "a") = None) by (by rewrite H). done.
    - intros x Hx. simpl in Hx. apply elem_of_singleton in Hx as ->. by eexists. }
  split; [split; [done|]; intros H; simpl in H; set_solver|].
  split. { intros x [vs H%KB]. unfold fill_l in H. rewrite !elem_of_cons in H. destruct H as [[= -> ->]|[H|H%elem_of_nil]]; [simpl; set_solver|done|done]. }
  split. { intros x. simpl. apply KN. unfold fill_l. simpl. rewrite !elem_of_cons, elem_of_nil. by intros [?|[?|?]]. }
  split; [repeat constructor|]. split.
  { split.
    - intros k vs H%KC. unfold clash_l in H. rewrite !elem_of_cons in H. by destruct H as [[= -> ->]|H%elem_of_nil].
    - intros H. assert (E : bs_cols (BState (list_to_map clash_l) {["SomeObjects"]} None) !! (KObj, "SomeObjects") = None) by (by rewrite H). done.
    - intros x Hx. simpl in Hx. apply elem_of_singleton in Hx as ->. by eexists. }
  split; [|by eexists]. intros x [vs H%KC]. unfold clash_l in H. rewrite !elem_of_cons in H.
  destruct H as [[= -> ->]|H%elem_of_nil]; [simpl; set_solver|done].
Qed.
