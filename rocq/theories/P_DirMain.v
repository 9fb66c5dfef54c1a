(** The statements of Prop_Dir.v, proved. *)
From Coq Require Import Ascii String Lia Sorted.
From Verif Require Import P_CsvMain.
From stdpp Require Import strings pretty list.
From Verif Require Import Spec_Output Spec_Dir.

Lemma byte_lt_trans s t u : byte_lt s t -> byte_lt t u -> byte_lt s u.
Proof.
  unfold byte_lt. revert t u. induction s as [|a s IH]; intros [|b t] [|c u]; simpl; try done.
  rewrite !orb_true_iff, !andb_true_iff, !Nat.ltb_lt, !Nat.eqb_eq. intros [H1|[H1 H2]] [H3|[H3 H4]]; try (left; lia).
  right. split; [lia|]. by eapply IH.
Qed.
Lemma byte_lt_prefix p s t : byte_lt s t -> byte_lt (p +:+ s) (p +:+ t).
Proof.
  intros H. induction p as [|c p IH]; [done|]. change (byte_lt (String c (p +:+ s)) (String c (p +:+ t))).
  unfold byte_lt in *. simpl. rewrite Nat.eqb_refl, IH. by rewrite orb_true_r.
Qed.
Fixpoint ascb (l : list string) : bool :=
  match l with s :: ((t :: _) as l) => byte_ltb s t && ascb l | _ => true end.
Lemma ascb_sorted l : ascb l = true -> StronglySorted byte_lt l.
Proof.
  intros H. apply Sorted_StronglySorted; [intros s t u; apply byte_lt_trans|].
  induction l as [|s l IH]; [constructor|]. destruct l as [|t l]; [repeat constructor|].
  simpl in H. apply andb_true_iff in H as [H1 H2]. constructor; [by apply IH|]. by constructor.
Qed.
Lemma sorted_take {A} (R : A -> A -> Prop) l n : StronglySorted R l -> StronglySorted R (take n l).
Proof.
  intros H. revert n. induction H as [|x l Hs IH Hx]; intros [|n]; simpl; try constructor; [apply IH|].
  by apply Forall_take.
Qed.
Definition file_suffix (w i : nat) : string := zero_pad w (pretty i) +:+ ".csv".
Definition suffix_width (n : nat) : nat := if decide (100 <= n) then 3 else if decide (10 <= n) then 2 else 1.
Lemma suffixes_sorted n : n <= 1000 -> StronglySorted byte_lt (file_suffix (suffix_width n) <$> seq 0 n) /\
  Forall (fun s => String.length s = suffix_width n + 4) (file_suffix (suffix_width n) <$> seq 0 n).
Proof.
  intros Hn.
  assert (H : forall w m, (ascb (file_suffix w <$> seq 0 m) && forallb (fun s => String.length s =? w + 4) (file_suffix w <$> seq 0 m)) = true ->
    n <= m -> StronglySorted byte_lt (file_suffix w <$> seq 0 n) /\ Forall (fun s => String.length s = w + 4) (file_suffix w <$> seq 0 n)).
  { intros w m Hc Hle. apply andb_true_iff in Hc as [H1 H2].
    assert (E : file_suffix w <$> seq 0 n = take n (file_suffix w <$> seq 0 m)).
    { rewrite <- fmap_take. f_equal. replace m with (n + (m - n)) by lia. rewrite seq_app, take_app_alt; [done|by rewrite seq_length]. }
    rewrite E. split; [by apply sorted_take, ascb_sorted|]. apply Forall_take.
    apply Forall_forall. intros s Hs. rewrite forallb_forall in H2. apply Nat.eqb_eq, H2. by apply elem_of_list_In. }
  unfold suffix_width. repeat case_decide.
  - apply (H 3 1000); [by vm_compute|done].
  - apply (H 2 99); [by vm_compute|lia].
  - apply (H 1 9); [by vm_compute|lia].
Qed.

(** The number of files. *)
Definition min_rows (o : wspec) : nat := if decide (ws_min_rows o <= 0)%Z then 512 else Z.to_nat (ws_min_rows o).
Lemma paths_form o rows cpu prefix paths : csv_dir_paths o rows cpu prefix = Ok paths ->
  paths = (fun i => prefix +:+ file_suffix (suffix_width (length paths)) i) <$> seq 0 (length paths) /\
  Z.of_nat (length paths) = (cpu `min` (1 + Z.of_nat (rows / min_rows o)))%Z /\ 0 < min_rows o.
Proof.
  unfold csv_dir_paths. cbv zeta. set (mr := if decide (ws_min_rows o <= 0)%Z then 512%Z else ws_min_rows o).
  assert (Hm : (0 < mr)%Z) by (unfold mr; destruct (decide _); lia).
  assert (Hmr : Z.to_nat mr = min_rows o) by (unfold mr, min_rows; case_decide; [by vm_compute|done]).
  assert (Hd : (Z.of_nat rows / mr)%Z = Z.of_nat (rows / min_rows o)).
  { rewrite <- Hmr, Nat2Z.inj_div, Z2Nat.id by lia. done. }
  rewrite Hd. set (q := rows / min_rows o). clearbody q.
  assert (H0 : 0 < min_rows o) by lia. clear Hmr Hd Hm. clearbody mr.
  assert (Hn : (if decide (cpu < 1 + Z.of_nat q)%Z then cpu else (1 + Z.of_nat q)%Z) = (cpu `min` (1 + Z.of_nat q))%Z).
  { case_decide; lia. }
  rewrite Hn. set (n := (cpu `min` (1 + Z.of_nat q))%Z). clearbody n. destruct (decide (n < 0)%Z) as [|Hneg]; [done|]. intros [= <-].
  rewrite fmap_length, seq_length. split; [|split; [lia|done]].
  apply list_fmap_ext. intros i x _. unfold file_suffix, suffix_width. f_equal. f_equal. f_equal.
  repeat case_decide; lia.
Qed.

Lemma C101_sorted_main : forall (o : wspec) (rows : nat) (cpu : Z) (prefix : string) paths,
  csv_dir_paths o rows cpu prefix = Ok paths -> length paths <= 1000 ->
  StronglySorted byte_lt paths /\ (forall p q, p ∈ paths -> q ∈ paths -> String.length p = String.length q).
Proof.
  intros o rows cpu prefix paths E Hn. destruct (paths_form _ _ _ _ _ E) as (Hp & _ & _).
  destruct (suffixes_sorted (length paths) Hn) as [Hs Hl].
  set (n := length paths) in *. clearbody n. subst paths. rewrite (list_fmap_compose (file_suffix (suffix_width n)) (String.append prefix)).
  set (l := file_suffix (suffix_width n) <$> seq 0 n) in *. clearbody l. split.
  - induction Hs as [|s l Hs IH Hx]; [constructor|]. apply Forall_cons in Hl as [_ Hl]. rewrite fmap_cons. constructor; [by apply IH|].
    apply Forall_fmap. eapply Forall_impl; [exact Hx|]. intros t. apply byte_lt_prefix.
  - assert (Hlen : forall s, String.length (prefix +:+ s) = String.length prefix + String.length s).
    { intros s. clear. induction prefix as [|c p IH]; [done|]. change (S (String.length (p +:+ s)) = S (String.length p) + String.length s). lia. }
    intros p q (s & -> & H1)%elem_of_list_fmap (t & -> & H2)%elem_of_list_fmap. rewrite Forall_forall in Hl.
    rewrite !Hlen, (Hl s H1), (Hl t H2). done.
Qed.
Lemma dec_parse s : forall a z, parse_digits (Z.of_nat a) s = Some z -> dec_value a s = Some (Z.to_nat z).
Proof.
  induction s as [|c s IH]; intros a z; cbn [parse_digits dec_value]; [intros [= <-]; by rewrite Nat2Z.id|].
  unfold digit. cbv zeta. unfold nat_of_ascii. case_decide as Hd; [|done]. intros H.
  set (n := N_of_ascii c) in *. clearbody n.
  replace ((48 <=? N.to_nat n) && (N.to_nat n <=? 57)) with true.
  2: { symmetry. apply andb_true_iff. rewrite !Nat.leb_le. lia. }
  apply IH. rewrite <- H. f_equal. lia.
Qed.
Lemma C101_names_main : forall (o : wspec) (rows : nat) (cpu : Z) (prefix : string) paths,
  csv_dir_paths o rows cpu prefix = Ok paths ->
  forall i p, paths !! i = Some p -> exists ds, p = prefix +:+ ds +:+ ".csv" /\ dec_value 0 ds = Some i.
Proof.
  intros o rows cpu prefix paths E i p Hi. destruct (paths_form _ _ _ _ _ E) as (Hp & _ & _).
  rewrite Hp, list_lookup_fmap in Hi. destruct (seq 0 _ !! i) as [j|] eqn:Hj; [|done]. injection Hi as <-.
  apply lookup_seq in Hj as [-> _]. rewrite Nat.add_0_l.
  eexists. split; [reflexivity|]. rewrite (dec_parse _ 0 (Z.of_nat i)); [by rewrite Nat2Z.id|].
  unfold zero_pad. change (Z.of_nat 0) with 0%Z. by rewrite parse_zero_pad, pretty_nat_digits.
Qed.
Lemma C101_number_main : forall (o : wspec) (rows : nat) (cpu : Z) (prefix : string), (0 <= cpu)%Z ->
  let m := if decide (ws_min_rows o <= 0)%Z then 512 else Z.to_nat (ws_min_rows o) in
  exists paths, csv_dir_paths o rows cpu prefix = Ok paths /\
    length paths = Z.to_nat cpu `min` (1 + rows / m) /\
    (1 < length paths <-> (1 < cpu)%Z /\ m <= rows) /\
    (m <= rows -> 0 < length paths -> m <= 2 * piece_size rows (length paths)).
Proof.
  intros o rows cpu prefix Hc m. destruct (csv_dir_paths o rows cpu prefix) as [paths|] eqn:E.
  2: { exfalso. unfold csv_dir_paths in E. cbv zeta in E. revert E.
       set (mr := if decide (ws_min_rows o <= 0)%Z then 512%Z else ws_min_rows o).
       assert (Hm : (0 < mr)%Z) by (unfold mr; case_decide; lia).
       assert (Hq : (0 <= Z.of_nat rows / mr)%Z) by (apply Z.div_pos; lia).
       generalize dependent (Z.of_nat rows / mr)%Z. intros q Hq. clearbody mr.
       set (n := if decide (cpu < 1 + q)%Z then cpu else (1 + q)%Z).
       assert (Hn : (0 <= n)%Z) by (unfold n; case_decide; lia). clearbody n.
       rewrite (decide_False (P := (n < 0)%Z)) by lia. done. }
  destruct (paths_form _ _ _ _ _ E) as (_ & Hl & Hm). change (min_rows o) with m in *. clearbody m. clear E.
  set (n := length paths) in *. exists paths. split; [done|]. fold n. clearbody n.
  pose proof (Nat.div_mod rows m ltac:(lia)) as Hdm. pose proof (Nat.mod_upper_bound rows m ltac:(lia)) as Hmod.
  assert (Hq : 1 <= rows / m <-> m <= rows).
  { split; intros H; [|by apply Nat.div_le_lower_bound; lia]. nia. }
  split; [lia|]. split; [lia|]. intros Hr Hn. unfold piece_size.
  pose proof (Nat.div_mod (rows + n - 1) n ltac:(lia)) as Hdn. pose proof (Nat.mod_upper_bound (rows + n - 1) n ltac:(lia)) as Hmn.
  set (b := (rows + n - 1) / n) in *. set (q := rows / m) in *. clearbody b q.
  assert (Hb : rows <= n * b) by lia. assert (Hnq : n <= 2 * q) by lia. nia.
Qed.

(** ** Witnesses *)
Definition c101_paths : list string := match csv_dir_paths (WSpec "" 1 false) 1000 1001 "r" with Ok l => l | Panic => [] end.
Lemma C101_sorted_refuted_main : exists (o : wspec) (rows : nat) (cpu : Z) (prefix : string) paths,
  csv_dir_paths o rows cpu prefix = Ok paths /\ length paths = 1001 /\ ~ StronglySorted byte_lt paths.
Proof.
  exists (WSpec "" 1 false), 1000, 1001%Z, "r", c101_paths. split; [by vm_compute|]. split; [by vm_compute|].
  intros H. assert (E : c101_paths = take 999 c101_paths ++ ["r999.csv"; "r1000.csv"]) by (by vm_compute).
  rewrite E in H. clear E. induction (take 999 c101_paths) as [|s l IH]; [|apply IH; by inversion H].
  inversion H as [|? ? _ H2]; subst. apply Forall_cons in H2 as [H2 _]. by vm_compute in H2.
Qed.
(** result01.csv, result02.csv etc. *)
Lemma C101_documented_refuted_main : exists (o : wspec) (rows : nat) (cpu : Z) paths,
  csv_dir_paths o rows cpu "result" = Ok paths /\ length paths = 2 /\ paths <> ["result01.csv"; "result02.csv"].
Proof. exists (WSpec "" 0 false), 1000, 2%Z, ["result0.csv"; "result1.csv"]. by vm_compute. Qed.
Lemma C101_min_rows_refuted_main : exists (o : wspec) (rows : nat) (cpu : Z) paths, csv_dir_paths o rows cpu "r" = Ok paths /\
  (0 < ws_min_rows o)%Z /\ (ws_min_rows o < Z.of_nat rows)%Z /\ (Z.of_nat (piece_size rows (length paths)) < ws_min_rows o)%Z.
Proof. exists (WSpec "" 4 false), 5, 8%Z, ["r0.csv"; "r1.csv"]. by vm_compute. Qed.
Lemma C101_check_main : csv_dir_paths (WSpec "" 2 false) 21 16 "r" =
  Ok ["r00.csv"; "r01.csv"; "r02.csv"; "r03.csv"; "r04.csv"; "r05.csv"; "r06.csv"; "r07.csv"; "r08.csv"; "r09.csv"; "r10.csv"] /\
  byte_lt "r09.csv" "r10.csv" /\ dec_value 0 "09" = Some 9 /\ piece_size 21 11 = 2.
Proof. by vm_compute. Qed.
