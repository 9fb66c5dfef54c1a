(** C94 and C95. *)
From Verif Require Import M_Output.
From Verif Require Import P_Exec.
From Verif Require Import P_CsvMain P_TextMain Spec_Output P_View2 P_View3 P_Csv2 P_Csv4 P_Csv5 P_CsvW P_CsvW2 P_Output P_Base P_Check.

(** ** Disk *)
Lemma create_spec can paths : NoDup paths -> forall fs,
  ((create_files can paths fs).2 = true <-> Forall (fun p => can p = true) paths) /\
  (forall p, p ∉ paths -> (create_files can paths fs).1 !! p = fs !! p) /\
  (forall i p, paths !! i = Some p ->
     (Forall (fun q => can q = true) (take (S i) paths) -> (create_files can paths fs).1 !! p = Some "") /\
     (~ Forall (fun q => can q = true) (take (S i) paths) -> (create_files can paths fs).1 !! p = fs !! p)).
Proof.
  induction 1 as [|x paths Hx Hnd IH]; intros fs; [done|]. simpl. destruct (can x) eqn:Ec.
  - destruct (IH (<[x:=""]> fs)) as (H1 & H2 & H3). split; [|split].
    + rewrite H1, Forall_cons. naive_solver.
    + intros p [Hp1 Hp2]%not_elem_of_cons. rewrite H2 by done. by apply lookup_insert_ne.
    + intros [|i] p Hp; simpl in Hp.
      * injection Hp as <-. split; [|intros []; by repeat constructor]. intros _. rewrite H2 by done. apply lookup_insert.
      * destruct (H3 i p Hp) as [H4 H5]. split.
        -- intros [_ HF]%Forall_cons. by apply H4.
        -- intros HF. rewrite H5 by (intros HF'; apply HF; by constructor). apply lookup_insert_ne.
           intros <-. apply Hx. by eapply elem_of_list_lookup_2.
  - split; [|split; [done|]].
    + split; [done|]. intros [E _]%Forall_cons. congruence.
    + intros i p Hp. split; [|done]. intros HF. destruct paths, i; apply Forall_cons in HF as [E _]; congruence.
Qed.
Lemma put_spec paths texts fs : NoDup paths -> length texts = length paths ->
  Forall2 (fun p s => put_files paths texts fs !! p = Some s) paths texts /\
  forall p, p ∉ paths -> put_files paths texts fs !! p = fs !! p.
Proof.
  intros Hnd Hl. unfold put_files.
  assert (Hf : (zip paths texts).*1 = paths) by (apply fst_zip; lia). split.
  - apply Forall2_same_length_lookup_2; [done|]. intros i p s Hp Hs.
    apply lookup_union_Some_l. apply elem_of_list_to_map_1; [by rewrite Hf|].
    apply elem_of_list_lookup. exists i. apply lookup_zip_with_Some. by eauto.
  - intros p Hp. apply lookup_union_r. apply not_elem_of_list_to_map_1. by rewrite Hf.
Qed.

Section main.
Context {crt : CsvRT} {rt : GoRT}.
Definition dir_files (order : nat -> nat -> gset string -> list string) (can : string -> bool) (wd : wdialect) (o : wspec)
    (h : heap) (d : dframe) (t : table) (prefix : string) (fs : disk) : Prop :=
  exists paths, csv_dir_paths o (num_rows d) (actual_max_cpu (d_raw d)) prefix = Ok paths /\
  match to_csv_dir order can wd o d prefix fs h with
  | Ok (paths', fs', failed, h') => paths' = paths /\ preserved h h' /\
      (forall p, p ∉ paths -> fs' !! p = fs !! p) /\
      (failed = false <-> Forall (fun p => can p = true) paths /\ valid_delim (wd_comma wd) = true) /\
      (failed = false -> exists texts k,
         Forall2 (csv_file wd (ws_marker o)) (pieces t (length paths)) texts /\
         Forall2 (fun p s => fs' !! p = Some s) paths (texts ++ replicate k (end_of_line wd))) /\
      (failed = true -> forall i p, paths !! i = Some p ->
         (Forall (fun q => can q = true) (take (S i) paths) -> fs' !! p = Some "") /\
         (~ Forall (fun q => can q = true) (take (S i) paths) -> fs' !! p = fs !! p))
  | Panic => unwritable t /\ Forall (fun p => can p = true) paths /\ valid_delim (wd_comma wd) = true
  end.
Lemma dir_core order can wd o h d prefix fs : wf h d -> (forall i, perm_order (order i)) -> (1 <= actual_max_cpu (d_raw d))%Z ->
  dir_files order can wd o h d (abs h (sort_if_needed o d)) prefix fs.
Proof.
  intros W P Hc. unfold dir_files, to_csv_dir. destruct (C48_paths_partial_main o (num_rows d) _ prefix Hc) as (paths & E & Hnd & H1 & _ & H2 & _).
  exists paths. split; [done|]. rewrite E. assert (EL : lift (Ok paths) h = Ok (paths, h)) by done. rewrite (bind_eq _ _ _ _ _ EL). clear EL.
  assert (Hr : 0 < num_rows d \/ length paths = 1).
  { destruct (decide (num_rows d = 0)) as [Hz|]; [|lia]. right. rewrite Hz in H2. rewrite Nat.div_0_l in H2; [lia|]. destruct (decide (ws_min_rows o <= 0)%Z); lia. }
  destruct (create_spec can paths Hnd fs) as (C1 & C2 & C3). unfold to_csv_files.
  destruct (create_files can paths fs) as [fs1 ok] eqn:Ec. cbn [fst snd] in C1, C2, C3. destruct ok.
  2: { unfold bind at 1, ret. cbn [fst snd]. split; [done|]. split; [apply ext_preserved, ext_refl|]. split; [done|]. split; [|split; [done|intros _; exact C3]].
       split; [done|]. intros [HF _]. by apply C1 in HF. }
  destruct (valid_delim (wd_comma wd)) eqn:Ev.
  - pose proof (to_csvs_pieces order o h d (length paths) W P ltac:(lia) Hr) as HW. cbv zeta in HW. unfold bind at 1, bind at 1.
    destruct (to_csvs order (fun _ _ => true) o d (length paths) h) as [[[files failed] h']|].
    2: { split; [done|]. split; [by apply C1|done]. }
    destruct HW as (-> & X & fl & rest & -> & Hl & Hre & HF). unfold ret. cbn [fst snd].
    destruct (put_spec paths (records_text wd <$> (fl ++ rest)) fs1 Hnd) as [P1 P2]; [by rewrite fmap_length|].
    split; [done|]. split; [by apply ext_preserved|]. split; [intros p Hp; rewrite P2 by done; by apply C2|].
    split; [split; [|done]; intros _; split; [by apply C1|done]|]. split; [|done]. intros _.
    exists (records_text wd <$> fl), (length rest). split.
    + apply Forall2_fmap_r. eapply Forall2_impl; [exact HF|]. intros t f (keys & rows & K1 & K2 & ->). exists keys, rows. done.
    + assert (replicate (length rest) (end_of_line wd) = records_text wd <$> rest) as ->; [|rewrite <- fmap_app; exact P1].
      clear -Hre. induction Hre as [|f rest -> Hre IH]; [done|]. rewrite fmap_cons. cbn [length replicate]. rewrite IH. f_equal.
      cbn [records_text]. unfold record_text, fields_text, end_of_line. by destruct (wd_crlf wd).
  - destruct (split_pieces h (sort_if_needed o d) (length paths) ltac:(by apply sort_wf) ltac:(lia) ltac:(by rewrite sort_rows)) as (vs & pad & h1 & E1 & X & _ & Hl & _).
    assert (EB : (let* dfs := split_n_view (sort_if_needed o d) (Z.of_nat (length paths)) in
        if decide (length paths <= length dfs) then ret (fs1, bool_decide (paths <> [])) else panic) h = Ok (fs1, true, h1)).
    { rewrite (bind_eq _ _ _ _ _ E1). rewrite decide_True by lia. rewrite bool_decide_eq_true_2; [done|]. intros ->. simpl in H1. lia. }
    rewrite (bind_eq _ _ _ _ _ EB). unfold ret. cbn [fst snd]. split; [done|]. split; [by apply ext_preserved|]. split; [done|].
    split; [naive_solver|]. split; [done|]. intros _. exact C3.
Qed.
Lemma C94_files_partial_main : forall (order : nat -> nat -> gset string -> list string) (can : string -> bool) (wd : wdialect) (o : wspec)
    (h : heap) (d : dframe) (prefix : string) (fs : disk),
  wf h d -> (forall i, perm_order (order i)) -> (1 <= actual_max_cpu (d_raw d))%Z ->
  d_viewed d = false \/ ws_order o = true ->
  exists paths, csv_dir_paths o (num_rows d) (actual_max_cpu (d_raw d)) prefix = Ok paths /\
  match to_csv_dir order can wd o d prefix fs h with
  | Ok (paths', fs', failed, h') => paths' = paths /\ preserved h h' /\
      (forall p, p ∉ paths -> fs' !! p = fs !! p) /\
      (failed = false <-> Forall (fun p => can p = true) paths /\ valid_delim (wd_comma wd) = true) /\
      (failed = false -> exists texts k,
         Forall2 (csv_file wd (ws_marker o)) (pieces (abs h d) (length paths)) texts /\
         (* the files after the pieces contain an empty line *)
         Forall2 (fun p s => fs' !! p = Some s) paths (texts ++ replicate k (end_of_line wd))) /\
      (failed = true -> forall i p, paths !! i = Some p ->
         (Forall (fun q => can q = true) (take (S i) paths) -> fs' !! p = Some "") /\
         (~ Forall (fun q => can q = true) (take (S i) paths) -> fs' !! p = fs !! p))
  | Panic => unwritable (abs h d) /\ Forall (fun p => can p = true) paths /\ valid_delim (wd_comma wd) = true
  end.
Proof.
  intros order can wd o h d prefix fs W P Hc Ho. pose proof (dir_core order can wd o h d prefix fs W P Hc) as H.
  rewrite sort_id in H by done. exact H.
Qed.
Lemma C94_pieces_main : forall (t : table) (n : nat), t_ok t -> 0 < n -> 
  t_concat (pieces t n) t /\ length (pieces t n) <= n /\ (n = 1 -> pieces t n = [t]) /\
  (* as many pieces as files *)
  ((n - 1) * (n - 1) < t_rows t -> length (pieces t n) = n) /\
  Forall (fun p => 0 < t_rows t -> 0 < t_rows p) (pieces t n).
Proof.
  intros t n Hok Hn. unfold pieces. destruct (decide (t_rows t = 0)) as [Hz|Hz].
  { split; [by apply t_concat_single|]. split; [simpl; lia|]. split; [done|]. split; [|by repeat constructor].
    rewrite Hz. intros H. lia. }
  destruct (ceil_bounds (t_rows t) n Hn) as [B1 B2]. destruct (B2 ltac:(lia)) as [B3 B4]. clear B2.
  fold (piece_size (t_rows t) n) in *. unfold num_pieces. set (b := piece_size (t_rows t) n) in *.
  destruct (ceil_bounds (t_rows t) b ltac:(lia)) as [C1 C2]. destruct (C2 ltac:(lia)) as [C3 C4]. clear C2. cbv zeta.
  assert (Hb : n = 1 -> b = t_rows t) by (intros ->; unfold b, piece_size; rewrite Nat.div_1_r; lia).
  assert (Hbn : b * n <= t_rows t + n - 1).
  { unfold b, piece_size. rewrite Nat.mul_comm. apply Nat.mul_div_le. lia. }
  set (m := (t_rows t + b - 1) / b) in *. clearbody m. clearbody b.
  split; [by apply t_concat_slices|]. rewrite fmap_length, seq_length. split; [nia|]. split; [|split].
  - intros Hn1. rewrite (Hb Hn1) in *. assert (m = 1) as -> by nia. cbn [seq]. rewrite list_fmap_singleton. f_equal. rewrite Nat.min_l by lia. by apply t_slice_all.
  - intros Hr. assert (m <= n) by nia. assert ((n - 1) * b < t_rows t); [|nia].
    destruct (decide ((n - 1) * b < t_rows t)) as [|Hge]; [done|]. exfalso. assert (b <= n - 1) by nia. nia.
  - apply Forall_fmap, Forall_forall. intros j [_ Hj]%elem_of_seq _. simpl. assert (j * b < t_rows t) by nia. nia.
Qed.
Lemma C94_unordered_view_main : forall (order : nat -> nat -> gset string -> list string) (can : string -> bool) (wd : wdialect) (o : wspec)
    (h : heap) (d : dframe) (prefix : string) (fs : disk) (paths : list string) (fs' : disk) (h' : heap),
  wf h d -> (forall i, perm_order (order i)) -> (1 <= actual_max_cpu (d_raw d))%Z ->
  d_viewed d = true -> ws_order o = false ->
  to_csv_dir order can wd o d prefix fs h = Ok (paths, fs', false, h') ->
  exists same texts k, t_rows same = t_rows (abs h d) /\ dom (t_cols same) = dom (t_cols (abs h d)) /\ t_strs same = t_strs (abs h d) /\
    (forall key col, t_cols same !! key = Some col -> exists v, col = replicate (num_rows d) v) /\
    Forall2 (csv_file wd (ws_marker o)) (pieces same (length paths)) texts /\
    Forall2 (fun p s => fs' !! p = Some s) paths (texts ++ replicate k (end_of_line wd)).
Proof.
  intros order can wd o h d prefix fs paths fs' h' W P Hc Hv Ho E. destruct (dir_core order can wd o h d prefix fs W P Hc) as (paths' & _ & H).
  rewrite E in H. destruct H as (<- & _ & _ & _ & H & _). destruct (H eq_refl) as (texts & k & H1 & H2).
  exists (abs h (sort_if_needed o d)), texts, k. split; [apply sort_rows|].
  unfold sort_if_needed in *. rewrite Hv, Ho in *. cbn [negb andb] in *. split; [cbn; by rewrite !dom_fmap_L|]. split; [done|].
  split; [|done]. intros key col. unfold abs. cbn [t_cols]. rewrite lookup_fmap. intros (s & Hs & ->)%fmap_Some_1.
  assert (inds (set_ind (view d) (mk_ind (replicate (num_rows d) 0))) = replicate (num_rows d) 0) as ->.
  { unfold inds, ilist. simpl. by rewrite take_ge. }
  destruct (decide (num_rows d = 0)) as [->|Hz]; [by exists (VBool true)|].
  destruct (sl_vals h s) as [|v l] eqn:El.
  { pose proof (abs_ok h d W key (pick (inds d) (sl_vals h s))) as [Hl _].
    { cbn. rewrite lookup_fmap. cbn in Hs. by rewrite Hs. }
    rewrite El in Hl. cbn in Hl. exfalso. clear -Hl Hz. assert (pick (inds d) ([] : list val) = []) as Hp.
    { clear. induction (inds d) as [|i ix IH]; [done|]. exact IH. }
    rewrite Hp in Hl. simpl in Hl. lia. }
  exists v. induction (num_rows d) as [|m IH] in |- *; [done|]. cbn [replicate]. change (v :: pick (replicate m 0) (v :: l) = v :: replicate m v). by rewrite IH.
Qed.
End main.

(** ** Reading it back *)
Section read.
Context {crt : CsvRT} {rt : GoRT}.
Lemma piece_cols t n p : t_ok t -> p ∈ pieces t n ->
  t_ok p /\ t_strs p = t_strs t /\ dom (t_cols p) = dom (t_cols t) /\
  forall k vs', t_cols p !! k = Some vs' -> exists vs, t_cols t !! k = Some vs /\ forall v, v ∈ vs' -> v ∈ vs.
Proof.
  intros Hok. unfold pieces. destruct (decide (t_rows t = 0)); [intros ->%elem_of_list_singleton; naive_solver|].
  intros (j & -> & Hj)%elem_of_list_fmap. set (a := j * _). set (b := _ `min` _). assert (Hb : b <= t_rows t) by lia. clearbody a b.
  assert (Hc : forall k vs', t_cols (t_slice a b t) !! k = Some vs' -> exists vs, t_cols t !! k = Some vs /\ vs' = take (b - a) (drop a vs)).
  { intros k vs'. unfold t_slice. cbn [t_cols]. rewrite lookup_fmap. intros (vs & E & ->)%fmap_Some_1. by exists vs. }
  split; [|split; [done|split]].
  - intros k vs' (vs & E & ->)%Hc. destruct (Hok _ _ E) as [H1 H2]. split.
    + unfold t_slice. cbn [t_rows]. rewrite take_length, drop_length. lia.
    + by apply Forall_take, Forall_drop.
  - unfold t_slice. cbn [t_cols]. apply dom_fmap_L.
  - intros k vs' (vs & E & ->)%Hc. exists vs. split; [done|]. intros v Hv. apply elem_of_take in Hv as (i & Hv & _). rewrite lookup_drop in Hv. by eapply elem_of_list_lookup_2.
Qed.
Lemma file_reads wd dl ro marker p text :
  wd_comma wd = di_comma dl -> usable dl -> no_blank_comma dl -> di_comment dl = None ->
  default_types ro -> rs_header ro = [] -> rs_exclude ro = [] ->
  t_ok p -> kept_text (wd_crlf wd) marker p ->
  (forall c, c ∈ t_strs p <-> is_Some (t_cols p !! (KObj, c))) ->
  (forall k k' c, is_Some (t_cols p !! (k, c)) -> is_Some (t_cols p !! (k', c)) -> k = k') ->
  (forall k vs, t_cols p !! k = Some vs -> numbers_ok vs) ->
  (forall k vs, t_cols p !! k = Some vs -> survives marker (rs_missing ro) k.1 vs) ->
  csv_file wd marker p text ->
  exists header recs, csv_records dl text = Some (header :: recs) /\ length recs = t_rows p /\ wide header recs /\ NoDup header /\
    (forall c, c ∈ header <-> exists k, is_Some (t_cols p !! (k, c))) /\ file_table ro header recs (t_cols p).
Proof.
  intros Hw Hu Hb Hcm Hdt Hh Hx Hok (Hne & Hkn & Hkc) Hs Huq Hnum Hsv (keys & rows & HO & Er & ->).
  destruct (t_records_length _ _ _ _ Er) as [Hlr Hwd].
  assert (Hkey : forall k, k ∈ keys <-> is_Some (t_cols p !! k)).
  { intros [k c]. rewrite (elem_of_order _ _ _ HO). simpl. split.
    - intros [[_ ?]|[-> ?%Hs]]; done.
    - intros Hk. destruct (decide (k = KObj)) as [->|]; [right; split; [done|by apply Hs]|by left]. }
  assert (Hhd : forall c, c ∈ snd <$> keys <-> exists k, is_Some (t_cols p !! (k, c))).
  { intros c. rewrite elem_of_list_fmap. split.
    - intros ([k c'] & -> & Hk%Hkey). by exists k.
    - intros [k Hk%Hkey]. by exists (k, c). }
  assert (Hnd : NoDup (snd <$> keys)).
  { eapply csv_order_names_nodup; [exact HO| |done]. intros c ?. by apply Hs. }
  assert (Hwide : wide (snd <$> keys) rows).
  { eapply Forall_impl; [exact Hwd|]. intros r Hr. cbv beta in Hr |- *. rewrite fmap_length. lia. }
  assert (Hknil : keys <> []).
  { intros ->. apply Hne. apply map_eq. intros k. rewrite lookup_empty. destruct (t_cols p !! k) eqn:Ek; [|done].
    assert (k ∈ []) as []%elem_of_nil. apply Hkey. by eexists. }
  exists (snd <$> keys), rows. split; [|split; [done|split; [done|split; [done|split; [done|]]]]].
  - apply (C85_identity_main wd dl ((snd <$> keys) :: rows) _ Hw Hu Hb).
    { intros r _ (k & f & fs & Hk & _). congruence. }
    { unfold csv_text. rewrite Hw. by rewrite (proj1 Hu). }
    split.
    + intros r r' H1 H2. assert (HL : forall r, r ∈ (snd <$> keys) :: rows -> length r = length keys).
      { intros x [->|Hx']%elem_of_cons; [by rewrite fmap_length|]. rewrite Forall_forall in Hwd. by apply Hwd. }
      by rewrite !HL.
    + intros r [->|Hr]%elem_of_cons.
      * split; [destruct keys; [done|]; done|]. split; [|split].
        -- intros E. destruct (proj1 (Hhd "")) as [k Hk]; [rewrite E; left|]. by apply Hkn in Hk as [? _].
        -- intros (k & f & fs & Hk & _). congruence.
        -- intros f [k Hk]%Hhd. by apply Hkn in Hk as [_ ?].
      * assert (Hcell : forall j s, r !! j = Some s -> exists k vs v, keys !! j = Some k /\ t_cols p !! k = Some vs /\ v ∈ vs /\ cell_text marker v = Some s).
        { intros j s Hj. pose proof (mapM_Some_1 _ _ _ Er) as F. apply elem_of_list_lookup in Hr as [i Hi].
          destruct (Forall2_lookup_r _ _ _ _ _ F Hi) as (i' & Hi' & E). apply mapM_Some_1 in E.
          destruct (Forall2_lookup_r _ _ _ _ _ E Hj) as (k & Hk & E2).
          destruct (t_cols p !! k) as [vs|] eqn:Ek; [|done]. cbn in E2. destruct (vs !! i') as [v|] eqn:Ev; [|done]. cbn in E2.
          exists k, vs, v. split; [done|]. split; [done|]. split; [by eapply elem_of_list_lookup_2|done]. }
        rewrite Forall_forall in Hwd. pose proof (Hwd r Hr) as Hlen. split; [|split; [|split]].
        -- intros ->. destruct keys; done.
        -- intros ->. destruct (Hcell 0 "" eq_refl) as (k & vs & v & H1 & H2 & H3 & H4). destruct (Hkc k vs v "" H2 H3 H4) as [_ [?|(k' & Hk' & Hs')]]; [done|].
           apply Hkey in Hs'. destruct keys as [|k0 [|? ?]]; [done| |done]. injection H1 as ->. apply elem_of_list_singleton in Hs'. done.
        -- intros (k & f & fs & Hk & _). congruence.
        -- intros f [j Hj]%elem_of_list_lookup. destruct (Hcell j f Hj) as (k & vs & v & H1 & H2 & H3 & H4). by destruct (Hkc k vs v f H2 H3 H4).
  - assert (HKV : forall k c vs, t_cols p !! (k, c) = Some vs -> Kof ro (snd <$> keys) rows c = k /\ Vof ro (snd <$> keys) rows c = vs).
    { intros k c vs Hk. assert (Hkk : (k, c) ∈ keys) by (apply Hkey; by eexists).
      pose proof (written_cells _ _ _ _ _ _ _ Hok Er Hnd Hkk Hk) as HT'. destruct (Hok _ _ Hk) as [_ Hty].
      pose proof (Hsv _ _ Hk) as HS. apply (survives_ladder _ (rs_missing ro) k vs _ HT' Hty (Hnum _ _ Hk)) in HS.
      destruct Hdt as (D1 & D2 & D3). apply (pure_kind_ladder ro _ k vs D1 D2 D3) in HS. unfold Vof, Kof. by injection HS as <- <-. }
    intros k c vs. split.
    + intros Hk. assert (Hc : c ∈ snd <$> keys) by (apply Hhd; exists k; by eexists). split; [done|]. split; [rewrite Hx; apply not_elem_of_nil|].
      apply ladder_of; [done..|]. by apply HKV.
    + intros (Hc & _ & Hl). apply ladder_of in Hl as [<- <-]; [|done..]. apply Hhd in Hc as (k' & vs' & Hk'). by destruct (HKV _ _ _ Hk') as [-> ->].
Qed.
End read.

Lemma digits_no_slash s : forall a n, parse_digits a s = Some n -> no_slash s.
Proof.
  induction s as [|c s IH]; intros a n; [done|]. cbn [parse_digits no_slash]. destruct (digit c) as [x|] eqn:Ed; [|done]. intros E. split; [|by eapply IH].
  intros ->. by vm_compute in Ed.
Qed.
Lemma no_slash_app s s' : no_slash s -> no_slash s' -> no_slash (s +:+ s').
Proof. induction s as [|c s IH]; [done|]. intros [H1 H2] H3. split; [done|]. by apply IH. Qed.
Lemma csv_name_app s : no_slash s -> csv_name (s +:+ ".csv") = true.
Proof.
  induction s as [|c s IH]; [done|]. intros [Hc Hs]. change (String c s +:+ ".csv") with (String c (s +:+ ".csv")). cbn [csv_name]. rewrite IH by done.
  rewrite (bool_decide_eq_false_2 (c = "/"%char)) by done. apply orb_true_r.
Qed.
Lemma strip_app p s : strip_dir p (p +:+ s) = Some s.
Proof. induction p as [|c p IH]; [done|]. change (String c p +:+ s) with (String c (p +:+ s)). cbn [strip_dir]. by rewrite decide_True. Qed.
Lemma string_app_assoc (a b c : string) : a +:+ (b +:+ c) = (a +:+ b) +:+ c.
Proof. induction a as [|x a IH]; [done|]. change (String x (a +:+ (b +:+ c)) = String x ((a +:+ b) +:+ c)). by rewrite IH. Qed.
Lemma paths_in_dir o rows cpu dir name paths : no_slash name ->
  csv_dir_paths o rows cpu (dir +:+ "/" +:+ name) = Ok paths -> forall p, p ∈ paths -> in_dir dir p = true.
Proof.
  intros Hn E. assert (exists w n, paths = (fun i : nat => (dir +:+ "/" +:+ name) +:+ zero_pad w (pretty i) +:+ ".csv") <$> seq 0 n) as (w & n & ->).
  { unfold csv_dir_paths in E. cbv zeta in E. match goal with H : context [if decide (?x < 0)%Z then Panic else _] |- _ => destruct (decide (x < 0)%Z) end; [done|].
    injection E as <-. by do 2 eexists. }
  intros p (i & -> & _)%elem_of_list_fmap. unfold in_dir. rewrite !string_app_assoc. rewrite <- !(string_app_assoc (dir +:+ "/")).
  rewrite strip_app. apply csv_name_app. apply no_slash_app; [done|]. eapply (digits_no_slash _ 0). unfold zero_pad.
  rewrite parse_zero_pad. apply pretty_nat_digits.
Qed.
Lemma glob_written dir (fs fs' : disk) paths : NoDup paths -> (forall p, p ∈ paths -> in_dir dir p = true /\ is_Some (fs' !! p)) ->
  (forall p, p ∉ paths -> fs' !! p = fs !! p) -> (forall p, is_Some (fs !! p) -> in_dir dir p = true -> p ∈ paths) ->
  glob_csv dir fs' ≡ₚ paths.
Proof.
  intros Hnd H1 H2 H3. unfold glob_csv, sort_strings. rewrite merge_sort_Permutation. apply NoDup_Permutation; [apply NoDup_filter, NoDup_elements|done|].
  intros p. rewrite elem_of_list_filter, elem_of_elements. split.
  - intros [Hd Hs%elem_of_dom]. destruct (decide (p ∈ paths)) as [|Hp]; [done|]. apply H3; [|done]. rewrite <- (H2 p Hp). done.
  - intros Hp. destruct (H1 p Hp). split; [done|]. by apply elem_of_dom.
Qed.

Section dir.
Context {crt : CsvRT} {rt : GoRT}.
Lemma regular_all l : regular_files (fun _ => Some true) l = Some l.
Proof. induction l as [|x l IH]; [done|]. cbn. by rewrite IH. Qed.
Lemma read_paths ro dl fs (arrival : list string) (info : list (list string * list (list string))) :
  Forall2 (fun p x => read_split ro (disk_content dl fs) p = Some x) arrival info ->
  mapM snd ((fun p => (p, read_split ro (disk_content dl fs) p)) <$> arrival) = Some info.
Proof. intros F. apply mapM_Some. apply Forall2_fmap_l. eapply Forall2_impl; [exact F|]. done. Qed.
(** The columns of a table in pieces. *)
Lemma glued_parts t n parts k : t_ok t -> 0 < n -> parts ≡ₚ pieces t n ->
  is_Some (t_cols t !! k) -> length (glued k parts) = t_rows t.
Proof.
  intros Hok Hn HP [col Hk]. destruct (C94_pieces_main t n Hok Hn) as ((_ & _ & HC) & _).
  destruct (Hok _ _ Hk) as [<- _]. rewrite <- (HC k col Hk). unfold glued. apply Permutation_length. by rewrite HP.
Qed.
Lemma C95_round_trip_partial_main : forall (order : nat -> nat -> gset string -> list string) (can : string -> bool) (wd : wdialect) (o : wspec)
    (h : heap) (d : dframe) (dir name : string) (fs fs' : disk) (paths : list string) (h1 : heap)
    (dl : dialect) (ro : rspec) (arrival : list string) (logs : list (list (list string))),
  wf h d -> (forall i, perm_order (order i)) -> (1 <= actual_max_cpu (d_raw d))%Z ->
  d_viewed d = false \/ ws_order o = true ->
  (* the object columns are the string columns; no two columns have the same name *)
  (forall c, c ∈ t_strs (abs h d) <-> is_Some (t_cols (abs h d) !! (KObj, c))) ->
  (forall k k' c, is_Some (t_cols (abs h d) !! (k, c)) -> is_Some (t_cols (abs h d) !! (k', c)) -> k = k') ->
  (forall k vs, t_cols (abs h d) !! k = Some vs -> numbers_ok vs) ->
  kept_text (wd_crlf wd) (ws_marker o) (abs h d) ->
  wd_comma wd = di_comma dl -> usable dl -> no_blank_comma dl -> di_comment dl = None ->
  default_types ro -> rs_header ro = [] -> rs_exclude ro = [] ->
  (* written without error to a directory that has no other files *)
  no_slash name -> (forall p, is_Some (fs !! p) -> in_dir dir p = true -> p ∈ paths) ->
  to_csv_dir order can wd o d (dir +:+ "/" +:+ name) fs h = Ok (paths, fs', false, h1) ->
  (* no file without rows; every column of every file has the type of the whole column *)
  length (pieces (abs h d) (length paths)) = length paths ->
  (forall p k vs, p ∈ pieces (abs h d) (length paths) -> t_cols p !! k = Some vs -> survives (ws_marker o) (rs_missing ro) k.1 vs) ->
  arrival ≡ₚ paths -> length logs = length paths ->
  (forall l, l ∈ logs -> NoDup (concat l) /\ forall c, c ∈ concat l <-> exists k, is_Some (t_cols (abs h d) !! (k, c))) ->
  exists r h2, from_csv_dir dl ro dir fs' arrival logs h1 = Ok (DRaw r, h2) /\
  forall ord, ord ≡ₚ map_to_list (mp h2 (r_maps r)) ->
  exists d' h3 parts, to_dataframe_ord ord r h2 = Ok (d', h3) /\ wf h3 d' /\ preserved h h3 /\
    (* the pieces in the order in which the files arrive *)
    Forall2 (fun p part => exists i, paths !! i = Some p /\ pieces (abs h d) (length paths) !! i = Some part) arrival parts /\
    parts ≡ₚ pieces (abs h d) (length paths) /\
    t_rows (abs h3 d') = t_rows (abs h d) /\
    (forall k vs, t_cols (abs h3 d') !! k = Some vs <-> is_Some (t_cols (abs h d) !! k) /\ vs = glued k parts) /\
    (arrival = paths -> t_cols (abs h3 d') = t_cols (abs h d)) /\
    t_strs (abs h3 d') = (if decide (length paths = 1) then t_strs (abs h d) else ∅).
Proof.
  intros order can wd o h d dir name fs fs' paths h1 dl ro arrival logs W P Hc Ho Hs Hu Hnum Hkt Hw Hus Hb Hcm Hdt Hh Hx Hns Hother E Hlen Hsv Harr Hll Hlog.
  destruct (C94_files_partial_main order can wd o h d (dir +:+ "/" +:+ name) fs W P Hc Ho) as (paths' & Ep & H). rewrite E in H.
  destruct H as (<- & Pr & Hrest & _ & HF & _). destruct (HF eq_refl) as (texts & k & F1 & F2). clear HF.
  destruct (C48_paths_partial_main o (num_rows d) _ (dir +:+ "/" +:+ name) Hc) as (paths' & Ep' & Hnd & H1 & _ & _ & _).
  rewrite Ep in Ep'. injection Ep' as <-. set (t := abs h d) in *. set (n := length paths) in *.
  assert (Hok : t_ok t) by (by apply abs_ok).
  assert (k = 0) as ->. { apply Forall2_length in F1, F2. rewrite app_length, replicate_length in F2. fold n in F2. lia. }
  cbn [replicate] in F2. rewrite app_nil_r in F2.
  (* each file *)
  assert (FR : Forall2 (fun p part => exists header recs, read_split ro (disk_content dl fs') p = Some (header, recs) /\ length recs = t_rows part /\
      wide header recs /\ NoDup header /\ (forall c, c ∈ header <-> exists k, is_Some (t_cols t !! (k, c))) /\ file_table ro header recs (t_cols part)) paths (pieces t n)).
  { apply Forall2_same_length_lookup_2; [by rewrite Hlen|]. intros i p part Hp Hpart.
    destruct (Forall2_lookup_l _ _ _ _ _ F1 Hpart) as (text & Ht & HC). destruct (Forall2_lookup_l _ _ _ _ _ F2 Hp) as (text' & Ht' & Hd).
    assert (text' = text) as -> by congruence. assert (Hin : part ∈ pieces t n) by (by eapply elem_of_list_lookup_2).
    destruct (piece_cols t n part Hok Hin) as (Hok' & Hst & Hdom & Hsub).
    assert (Hsome : forall k, is_Some (t_cols part !! k) <-> is_Some (t_cols t !! k)). { intros k. by rewrite <- !elem_of_dom, Hdom. }
    destruct (file_reads wd dl ro (ws_marker o) part text Hw Hus Hb Hcm Hdt Hh Hx Hok') as (header & recs & R1 & R2 & R3 & R4 & R5 & R6).
    - destruct Hkt as (K1 & K2 & K3). split; [|split].
      + intros E0. apply K1. apply map_eq. intros k. rewrite lookup_empty. destruct (t_cols t !! k) eqn:Ek; [|done].
        destruct (proj2 (Hsome k)) as [x Hk]; [by eexists|]. rewrite E0, lookup_empty in Hk. done.
      + intros k c Hk. apply (K2 k c). by apply Hsome.
      + intros k vs v s Hk Hv Hcell. destruct (Hsub k vs Hk) as (vs0 & Hk0 & Hincl). destruct (K3 k vs0 v s Hk0 (Hincl v Hv) Hcell) as [? [?|(k' & ? & Hk')]].
        * split; [done|by left].
        * split; [done|]. right. exists k'. split; [done|]. by apply Hsome.
    - intros c. rewrite Hst, Hsome. apply Hs.
    - intros k0 k1 c. rewrite !Hsome. apply Hu.
    - intros k vs Hk. destruct (Hsub k vs Hk) as (vs0 & Hk0 & Hincl). destruct (Hnum k vs0 Hk0) as [N1 N2]. split; naive_solver.
    - intros k vs Hk. by apply (Hsv part k vs).
    - done.
    - exists header, recs. split; [|split; [done|split; [done|split; [done|split; [|done]]]]].
      + unfold read_split, disk_content. rewrite Hd. cbn [mbind option_bind]. rewrite R1. cbn [mbind option_bind]. unfold csv_split. by rewrite Hh.
      + intros c. rewrite R5. setoid_rewrite Hsome. done. }
  (* what the pattern matches *)
  assert (HG : glob_csv dir fs' ≡ₚ paths).
  { apply (glob_written dir fs fs' paths Hnd); [|done|done]. intros p Hp. split; [by eapply paths_in_dir|].
    apply elem_of_list_lookup in Hp as [i Hp]. destruct (Forall2_lookup_l _ _ _ _ _ F2 Hp) as (text & _ & Hd). by eexists. }
  assert (HPP : exists parts, Forall2 (fun p part => exists i, paths !! i = Some p /\ pieces t n !! i = Some part) arrival parts /\ parts ≡ₚ pieces t n).
  { assert (F : Forall2 (fun p part => exists i, paths !! i = Some p /\ pieces t n !! i = Some part) paths (pieces t n)).
    { apply Forall2_same_length_lookup_2; [by rewrite Hlen|]. intros i p part ? ?. by exists i. }
    destruct (Permutation_Forall2 (symmetry Harr) F) as (parts & HP & F'). exists parts. split; [exact F'|by symmetry]. }
  destruct HPP as (parts & FP & HP).
  assert (Hglue : arrival = paths -> forall k, is_Some (t_cols t !! k) -> Some (glued k parts) = t_cols t !! k).
  { intros -> k [col Hk]. assert (parts = pieces t n) as ->.
    { apply list_eq_same_length with n; [by rewrite Hlen|by rewrite <- (Forall2_length _ _ _ FP)|]. intros i x y Hi Hx1 Hy1.
      destruct (Forall2_lookup_r _ _ _ _ _ FP Hx1) as (p & Hp & j & Hj & Hpj). assert (i = j) as -> by (by eapply NoDup_lookup). congruence. }
    destruct (C94_pieces_main t n Hok ltac:(lia)) as ((_ & _ & HC) & _). rewrite Hk. f_equal. exact (HC k col Hk). }
  assert (Hgl : forall k, is_Some (t_cols t !! k) -> length (glued k parts) = t_rows t).
  { intros k. eapply glued_parts; [done| |exact HP]. lia. }
  pose proof Hkt as (Hne & _ & _).
  destruct (decide (n = 1)) as [Hn1|Hn1].
  - (* one file *)
    assert (Hpt : pieces t n = [t]) by (by apply C94_pieces_main; [done|lia|]). rewrite Hpt in *.
    apply Permutation_singleton_r in HP. subst parts.
    destruct paths as [|p [|? ?]]; [done| |done]. apply Permutation_singleton_r in HG. apply Permutation_singleton_r in Harr. subst arrival.
    destruct logs as [|l [|? ?]]; [done| |done]. apply Forall2_cons_1 in FR as [(header & recs & R1 & R2 & R3 & R4 & R5 & R6) _].
    unfold from_csv_dir, pattern_paths. rewrite HG, regular_all, R1. cbn [concat]. rewrite app_nil_r.
    destruct (Hlog l) as [L1 L2]; [left|].
    assert (Hnm : forall c, c ∈ csv_names ro header <-> c ∈ header).
    { intros c. rewrite elem_of_csv_names, Hx. split; [by intros [? _]|]. intros ?. split; [done|apply not_elem_of_nil]. }
    destruct (from_csv_table ro header recs l h1 R3) as (r & h2 & E2 & HT).
    { apply NoDup_Permutation; [done|apply NoDup_elements|]. intros c. by rewrite elem_of_elements, Hnm, L2, R5. }
    exists r, h2. split; [by rewrite (bind_eq _ _ _ _ _ E2)|]. intros ord Hord. destruct (HT ord Hord) as (d' & h3 & cols & strs & E3 & W3 & X3 & Ha & Hcl & Hst).
    exists d', h3, [t]. split; [done|]. split; [done|].
    assert (Pr3 : preserved h h3) by (eapply preserved_trans; [exact Pr|by apply ext_preserved]).
    setoid_rewrite Hnm in Hcl. setoid_rewrite Hnm in Hst.
    assert (HKV : forall k c vs, t_cols t !! (k, c) = Some vs <-> c ∈ header /\ Kof ro header recs c = k /\ Vof ro header recs c = vs).
    { intros k c vs. rewrite (R6 k c vs), Hx. split.
      - intros (Hc1 & _ & HL). split; [done|]. by apply ladder_of.
      - intros (Hc1 & HL). split; [done|]. split; [apply not_elem_of_nil|]. by apply ladder_of. }
    assert (Heq : cols = t_cols t).
    { apply map_eq. intros [k c]. apply option_eq. intros vs. by rewrite Hcl, HKV. }
    rewrite Ha. cbn [t_rows t_cols t_strs]. rewrite Heq.
    split; [done|]. split; [done|]. split; [done|]. split; [|split; [|split; [done|]]].
    + rewrite decide_False; [done|]. intros E0. apply Hne. apply map_eq. intros [k c]. rewrite lookup_empty. destruct (t_cols t !! (k, c)) as [vs|] eqn:Ek; [|done].
      apply HKV in Ek as [Hc1 _]. apply Hnm in Hc1. rewrite E0 in Hc1. by apply elem_of_empty in Hc1.
    + intros k vs. unfold glued. rewrite list_fmap_singleton. cbn [concat]. rewrite app_nil_r. destruct (t_cols t !! k) as [x|].
      * split; [intros [= <-]; split; [by eexists|done]|]. intros [_ ->]. done.
      * split; [done|]. by intros [[? ?] _].
    + apply set_eq. intros c. rewrite Hst, (Hs c). split.
      * intros [Hc1 HK]. exists (Vof ro header recs c). by apply HKV.
      * intros [vs Hk]. apply HKV in Hk. tauto.
  - (* several files *)
    assert (FA : Forall2 (fun p part => exists header recs, read_split ro (disk_content dl fs') p = Some (header, recs) /\ length recs = t_rows part /\
      wide header recs /\ NoDup header /\ (forall c, c ∈ header <-> exists k, is_Some (t_cols t !! (k, c))) /\ file_table ro header recs (t_cols part)) arrival parts).
    { eapply Forall2_impl; [exact FP|]. intros p part (i & Hp & Hpt). destruct (Forall2_lookup_lr _ _ _ _ _ _ FR Hp Hpt) as (header & recs & HR). by exists header, recs. }
    assert (HI : exists info, Forall2 (fun p x => read_split ro (disk_content dl fs') p = Some x) arrival info /\
      Forall2 (fun x part => length x.2 = t_rows part /\ wide x.1 x.2 /\ (forall c, c ∈ x.1 <-> exists k, is_Some (t_cols t !! (k, c))) /\ file_table ro x.1 x.2 (t_cols part)) info parts).
    { clear -FA. induction FA as [|p part arrival parts (header & recs & R1 & R2 & R3 & R4 & R5 & R6) FA IH].
      - by exists [].
      - destruct IH as (info & I1 & I2). exists ((header, recs) :: info). split; constructor; done. }
    destruct HI as (info & I1 & I2). pose proof (read_paths _ _ _ _ _ I1) as EM.
    assert (Hli : length info = length logs).
    { rewrite Hll, <- (Forall2_length _ _ _ I1), Harr. done. }
    assert (FZ : Forall2 (fun f tab => readable ro f /\ file_table ro f.1.1 f.1.2 tab) (zip info logs) (t_cols <$> parts)).
    { apply Forall2_fmap_r. apply Forall2_same_length_lookup_2.
      { rewrite zip_with_length_l by lia. by apply Forall2_length in I2. }
      intros i [[header recs] l] part Hz Hpt. apply lookup_zip_with_Some in Hz as (x & l' & [= <- <-] & Hi & Hl).
      destruct (Forall2_lookup_lr _ _ _ _ _ _ I2 Hi Hpt) as (J1 & J2 & J3 & J4). cbn [fst snd] in *.
      destruct (Hlog l) as [L1 L2]; [by eapply elem_of_list_lookup_2|]. split; [|done]. split; [done|]. split; [done|]. cbn [fst snd].
      intros c. rewrite L2, J3, Hx. split; [intros ?; split; [done|apply not_elem_of_nil]|by intros [? _]]. }
    destruct (C71_pattern_partial_main ro (zip info logs) (t_cols <$> parts) h1 Hdt FZ) as (r & h2 & E2 & P2 & HC & HT).
    exists r, h2. split.
    { unfold from_csv_dir, pattern_paths. rewrite regular_all. pose proof (Permutation_length HG) as HGl. fold n in HGl.
      destruct (glob_csv dir fs') as [|p1 [|p2 ps]]; [simpl in HGl; lia|simpl in HGl; lia|].
      unfold pattern_result. rewrite EM.
      assert (EB : (let* r := from_csv_files ro (zip info logs) in ret (Some r)) h1 = Ok (Some r, h2)) by (by rewrite (bind_eq _ _ _ _ _ E2)).
      by rewrite (bind_eq _ _ _ _ _ EB). }
    intros ord Hord. 
    assert (Hpd : forall part, part ∈ parts -> dom (t_cols part) = dom (t_cols t)).
    { intros part Hpt. rewrite HP in Hpt. by apply (piece_cols t n part Hok) in Hpt as (_ & _ & ? & _). }
    destruct (HT ord Hord) as (d' & h3 & E3 & W3 & P3 & C3 & R3 & S3 & _).
    { intros tab tab' (x & -> & Hx1)%elem_of_list_fmap (x' & -> & Hx2)%elem_of_list_fmap. exact (eq_trans (Hpd x Hx1) (eq_sym (Hpd x' Hx2))). }
    exists d', h3, parts. split; [done|]. split; [done|]. split; [by eapply preserved_trans|]. split; [done|]. split; [done|].
    assert (Hcols : forall k vs, t_cols (abs h3 d') !! k = Some vs <-> is_Some (t_cols t !! k) /\ vs = glued k parts).
    { intros k vs. rewrite C3, HC. unfold glued. rewrite <- list_fmap_compose. split.
      - intros [(tab & Ht & Hs1) ->]. split; [|done]. apply elem_of_list_fmap in Ht as (part & -> & Hpt). apply elem_of_dom. rewrite <- (Hpd part Hpt). by apply elem_of_dom.
      - intros [Hs1 ->]. split; [|done]. destruct parts as [|part parts'].
        { apply Permutation_length in HP. rewrite Hlen in HP. simpl in HP. lia. }
        exists (t_cols part). split; [rewrite fmap_cons; left|]. apply elem_of_dom. rewrite (Hpd part) by left. by apply elem_of_dom. }
    split; [|split; [done|split]].
    + apply map_choose in Hne as (k & vs & Hk). assert (Hsk : t_cols (abs h3 d') !! k = Some (glued k parts)). { apply Hcols. split; [by eexists|done]. }
      destruct (abs_ok h3 d' W3 _ _ Hsk) as [<- _]. apply Hgl. by eexists.
    + intros Ha. apply map_eq. intros k. apply option_eq. intros vs. rewrite Hcols. split.
      * intros [Hs1 ->]. by rewrite <- (Hglue Ha k Hs1).
      * intros Hk. assert (Hs1 : is_Some (t_cols t !! k)) by (by eexists). split; [done|]. pose proof (Hglue Ha k Hs1) as Hg. congruence.
    + done.
Qed.
(** More files than pieces: nothing can be read. *)
Lemma C95_more_files_main : forall (order : nat -> nat -> gset string -> list string) (can : string -> bool) (wd : wdialect) (o : wspec)
    (h : heap) (d : dframe) (dir name : string) (fs fs' : disk) (paths : list string) (h1 : heap)
    (dl : dialect) (ro : rspec) (arrival : list string) (logs : list (list (list string))),
  wf h d -> (forall i, perm_order (order i)) -> (1 <= actual_max_cpu (d_raw d))%Z ->
  wd_comma wd = di_comma dl -> usable dl -> no_blank_comma dl -> rs_header ro = [] ->
  no_slash name -> (forall p, is_Some (fs !! p) -> in_dir dir p = true -> p ∈ paths) ->
  to_csv_dir order can wd o d (dir +:+ "/" +:+ name) fs h = Ok (paths, fs', false, h1) ->
  length (pieces (abs h d) (length paths)) < length paths ->
  arrival ≡ₚ paths ->
  from_csv_dir dl ro dir fs' arrival logs h1 = Ok (DError, h1).
Proof.
  intros order can wd o h d dir name fs fs' paths h1 dl ro arrival logs W P Hc Hw Hus Hb Hh Hns Hother E Hlen Harr.
  destruct (dir_core order can wd o h d (dir +:+ "/" +:+ name) fs W P Hc) as (paths' & Ep & H). rewrite E in H.
  destruct H as (<- & _ & Hrest & _ & HF & _). destruct (HF eq_refl) as (texts & k & F1 & F2). clear HF.
  destruct (C48_paths_partial_main o (num_rows d) _ (dir +:+ "/" +:+ name) Hc) as (paths' & Ep' & Hnd & H1 & _ & _ & _).
  rewrite Ep in Ep'. injection Ep' as <-.
  assert (Hpl : length (pieces (abs h (sort_if_needed o d)) (length paths)) = length (pieces (abs h d) (length paths))).
  { unfold pieces. change (t_rows (abs h (sort_if_needed o d))) with (num_rows (sort_if_needed o d)). rewrite sort_rows. change (t_rows (abs h d)) with (num_rows d).
    destruct (decide _); [done|]. cbv zeta. by rewrite !fmap_length. }
  assert (H2 : 2 <= length paths).
  { assert (1 <= length (pieces (abs h d) (length paths))); [|lia]. destruct (C94_pieces_main (abs h d) (length paths) (abs_ok h d W) H1) as (HC & _).
    destruct (pieces (abs h d) (length paths)) eqn:Ep0; [|simpl; lia]. exfalso. unfold pieces in Ep0. destruct (decide _); [done|]. destruct HC as (Hz & _). simpl in Hz. done. }
  assert (HG : glob_csv dir fs' ≡ₚ paths).
  { apply (glob_written dir fs fs' paths Hnd); [|done|done]. intros p Hp. split; [by eapply paths_in_dir|].
    apply elem_of_list_lookup in Hp as [i Hp]. destruct (Forall2_lookup_l _ _ _ _ _ F2 Hp) as (text & _ & Hd). by eexists. }
  assert (Hbad : exists p, p ∈ arrival /\ read_split ro (disk_content dl fs') p = None).
  { destruct (Forall2_lookup_r _ _ _ (length texts) (end_of_line wd) F2) as (p & Hp & Hd).
    { apply Forall2_length in F1, F2. rewrite app_length, replicate_length in F2. rewrite lookup_app_r by lia. rewrite Nat.sub_diag.
      apply lookup_replicate. split; [done|]. lia. }
    exists p. split; [rewrite Harr; by eapply elem_of_list_lookup_2|].
    assert (Er : csv_records dl (end_of_line wd) = Some []).
    { destruct (C85_read_back_partial_main wd dl [[]] (end_of_line wd) Hw Hus Hb) as [HR _].
      - intros r ->%elem_of_list_singleton (k0 & f & g & _ & Hx & _). done.
      - unfold csv_text. rewrite Hw, (proj1 Hus). f_equal. cbn [records_text]. unfold record_text, fields_text, end_of_line. by destruct (wd_crlf wd).
      - assert (Hcb : come_back wd dl [[]] = []). { unfold come_back. rewrite filter_cons_False; [done|]. intros Hl. apply Hl. left. by left. }
        rewrite Hcb in HR. apply HR. intros r r' Hr. by apply elem_of_nil in Hr. }
    unfold read_split, disk_content. rewrite Hd. cbn [mbind option_bind]. rewrite Er. cbn [mbind option_bind]. unfold csv_split. by rewrite Hh. }
  destruct Hbad as (p & Hp & Hbad).
  unfold from_csv_dir, pattern_paths. rewrite regular_all. pose proof (Permutation_length HG) as HGl.
  destruct (glob_csv dir fs') as [|p1 [|p2 ps]]; [simpl in HGl; lia|simpl in HGl; lia|].
  unfold pattern_result. destruct (mapM snd _) as [info|] eqn:EM; [|done]. exfalso. apply mapM_Some_1 in EM.
  apply elem_of_list_lookup in Hp as [i Hp].
  destruct (Forall2_lookup_l _ _ _ i (p, read_split ro (disk_content dl fs') p) EM) as (x & _ & Hx); [by rewrite list_lookup_fmap, Hp|].
  cbn [snd] in Hx. congruence.
Qed.
End dir.

(** ** Cases *)
Section wit.
Local Existing Instance ex_rt.
Local Existing Instance ex_crt.
Definition c94_order : nat -> nat -> gset string -> list string := fun _ => names_order.
Definition c94_disk : disk := {["out/r0.csv" := "old"; "z" := "kept"]}.
Definition c94_out (rows : Z) (can : string -> bool) (d : dframe) (h : heap) := to_csv_dir c94_order can unix (WSpec "" rows false) d "out/r" c94_disk h.
Definition c94_show {A} (r : res (list string * disk * bool * A)) : option (list string * list (option string) * bool) :=
  match r with Ok (ps, fs, f, _) => Some (ps, (fun p => fs !! p) <$> ("z" :: ps), f) | Panic => None end.
Lemma C94_check_main : wf ex_h ex_d /\ d_viewed ex_d = false /\ (1 <= actual_max_cpu (d_raw ex_d))%Z /\
  c94_show (c94_out 3 (fun _ => true) ex_d ex_h) = Some (["out/r0.csv"; "out/r1.csv"],
    [Some "kept"; Some ("f,a,b,s" +:+ lf +:+ "true,5,0.5,x" +:+ lf +:+ "false,3,0," +:+ lf); Some ("f,a,b,s" +:+ lf +:+ "true,9,1,yy" +:+ lf +:+ "false,1,1,x" +:+ lf)], false) /\
  (* the last file contains an empty line *)
  c94_show (c94_out 2 (fun _ => true) ex_d ex_h) = Some (["out/r0.csv"; "out/r1.csv"; "out/r2.csv"],
    [Some "kept"; Some ("f,a,b,s" +:+ lf +:+ "true,5,0.5,x" +:+ lf +:+ "false,3,0," +:+ lf); Some ("f,a,b,s" +:+ lf +:+ "true,9,1,yy" +:+ lf +:+ "false,1,1,x" +:+ lf); Some lf], false) /\
  (* the second file cannot be created; the first one is lost *)
  c94_show (c94_out 2 (fun p => bool_decide (p <> "out/r1.csv")) ex_d ex_h) =
    Some (["out/r0.csv"; "out/r1.csv"; "out/r2.csv"], [Some "kept"; Some ""; None; None], true).
Proof. split; [exact ex_wf|]. split_and!; by vm_compute. Qed.
(** A view of rows 2, 0 and 2. *)
Lemma C94_view_refuted_main : exists h d, wf h d /\ t_cols (abs h d) !! (KInt, "a") = Some [VInt 9; VInt 5; VInt 9] /\
  c94_show (c94_out 3 (fun _ => true) d h) = Some (["out/r0.csv"; "out/r1.csv"],
    [Some "kept"; Some ("f,a,b,s" +:+ lf +:+ "true,5,0.5,x" +:+ lf +:+ "true,5,0.5,x" +:+ lf); Some ("f,a,b,s" +:+ lf +:+ "true,5,0.5,x" +:+ lf)], false).
Proof. exists ex_vh, ex_v. split; [exact ex_v_wf|]. split; by vm_compute. Qed.

Definition c95_build : M dframe :=
  let* r := new_raw in
  let* r := b_add KInt r "a" [VInt 5; VInt 3; VInt 9; VInt 7] in
  let* r := b_add KObj r "s" [VObj (OStr "u"); VObj ONil; VObj (OStr "w"); VObj (OStr "x")] in
  let* r := b_mark r "s" in
  to_dataframe (set_max_cpu r 3).
Definition c95_d : dframe := (run_df c95_build heap0).1.
Definition c95_h : heap := (run_df c95_build heap0).2.
Definition c95_t : table := abs c95_h c95_d.
Definition c95_in (rows : Z) (d : dframe) (h : heap) (arrival : list string) (logs : list (list (list string))) : res (dir_result * heap) :=
  match c94_out rows (fun _ => true) d h with Ok (ps, fs, _, h) => from_csv_dir plain_d ro0 "out" fs arrival logs h | Panic => Panic end.
Definition c95_back (r : res (dir_result * heap)) : option (table) :=
  match r with Ok (DRaw r, h) => match to_dataframe r h with Ok (d, h) => Some (abs h d) | Panic => None end | _ => None end.
Lemma c95_cols k vs : t_cols c95_t !! k = Some vs ->
  (k = (KInt, "a") /\ vs = [VInt 5; VInt 3; VInt 9; VInt 7]) \/ (k = (KObj, "s") /\ vs = [VObj (OStr "u"); VObj ONil; VObj (OStr "w"); VObj (OStr "x")]).
Proof.
  intros H%elem_of_map_to_list. assert (L : map_to_list (t_cols c95_t) = [((KObj, "s"), [VObj (OStr "u"); VObj ONil; VObj (OStr "w"); VObj (OStr "x")]); ((KInt, "a"), [VInt 5; VInt 3; VInt 9; VInt 7])]) by (by vm_compute).
  rewrite L in H. clear L. rewrite !elem_of_cons, elem_of_nil in H. destruct H as [[= -> ->]|[[= -> ->]|[]]]; [by right|by left].
Qed.
Lemma C95_check_main : wf c95_h c95_d /\ d_viewed c95_d = false /\ (1 <= actual_max_cpu (d_raw c95_d))%Z /\ kept_text false "" c95_t /\
  (forall c, c ∈ t_strs c95_t <-> is_Some (t_cols c95_t !! (KObj, c))) /\ (forall k vs, t_cols c95_t !! k = Some vs -> numbers_ok vs) /\
  length (pieces c95_t 2) = 2 /\
  (forall p k vs, p ∈ pieces c95_t 2 -> t_cols p !! k = Some vs -> survives "" [""] k.1 vs) /\
  match c95_back (c95_in 3 c95_d c95_h ["out/r1.csv"; "out/r0.csv"] [[["a"; "s"]]; [["a"]; ["s"]]]) with
  | Some t => t_rows t = 4 /\ t_cols t !! (KInt, "a") = Some [VInt 9; VInt 7; VInt 5; VInt 3] /\
      t_cols t !! (KObj, "s") = Some [VObj (OStr "w"); VObj (OStr "x"); VObj (OStr "u"); VObj ONil]
  | None => False
  end.
Proof.
  split; [apply (wf_check_sound _ _ 4); by vm_compute|]. split; [by vm_compute|]. split; [by vm_compute|]. split; [|split; [|split; [|split; [by vm_compute|split]]]].
  - split; [|split].
    + intros E. assert (H : t_cols c95_t !! (KInt, "a") <> None) by (by vm_compute). by rewrite E in H.
    + intros k c [vs [[[= -> ->] _]|[[= -> ->] _]]%c95_cols]; done.
    + intros k vs v s [[-> ->]|[-> ->]]%c95_cols Hv Hs; rewrite !elem_of_cons, elem_of_nil in Hv.
      * destruct Hv as [->|[->|[->|[->|[]]]]]; injection Hs as <-; (split; [by vm_compute|by left]).
      * destruct Hv as [->|[->|[->|[->|[]]]]]; injection Hs as <-; (split; [by vm_compute|]); right; exists (KInt, "a"); (split; [done|]); apply (bool_decide_unpack _); by vm_compute.
  - intros c. assert (HS : t_strs c95_t = {["s"]}) by (apply (bool_decide_unpack _); by vm_compute). rewrite HS, elem_of_singleton. split.
    + intros ->. apply (bool_decide_unpack _). by vm_compute.
    + intros [vs [[[=] _]|[[= ->] _]]%c95_cols]. done.
  - intros k vs [[-> ->]|[-> ->]]%c95_cols; split; intros x Hx; rewrite !elem_of_cons, elem_of_nil in Hx.
    + destruct Hx as [[= ->]|[[= ->]|[[= ->]|[[= ->]|[]]]]]; split; by vm_compute.
    + by destruct Hx as [[=]|[[=]|[[=]|[[=]|[]]]]].
    + by destruct Hx as [[=]|[[=]|[[=]|[[=]|[]]]]].
    + by destruct Hx as [[=]|[[=]|[[=]|[[=]|[]]]]].
  - intros p k vs Hp Hk. assert (Hp' : p = t_slice 0 2 c95_t \/ p = t_slice 2 4 c95_t).
    { unfold pieces in Hp. assert (Hr4 : t_rows c95_t = 4) by (by vm_compute). rewrite Hr4 in Hp. rewrite decide_False in Hp by done. cbv zeta in Hp. change (piece_size 4 2) with 2 in Hp. change (num_pieces 4 2) with 2 in Hp.
      cbn [seq] in Hp. rewrite !fmap_cons in Hp. apply elem_of_cons in Hp as [->|Hp]; [by left|]. apply elem_of_list_singleton in Hp as ->. by right. }
    assert (exists vs0, t_cols c95_t !! k = Some vs0 /\ (vs = take 2 (drop 0 vs0) \/ vs = take 2 (drop 2 vs0))) as (vs0 & Hk0 & Hvs).
    { destruct Hp' as [->| ->]; unfold t_slice in Hk; cbn [t_cols] in Hk; rewrite lookup_fmap in Hk; apply fmap_Some_1 in Hk as (vs0 & E & ->); exists vs0; (split; [done|]); [left|right]; done. }
    apply c95_cols in Hk0 as [[-> ->]|[-> ->]]; cbn [fst].
    + destruct Hvs as [->| ->]; cbn; (split; [eexists; split; [left|]; done|]); intros z Hz Hm; exfalso;
        repeat (apply elem_of_cons in Hz as [[= ->]|Hz]; [apply elem_of_list_singleton in Hm; by vm_compute in Hm|]); by apply elem_of_nil in Hz.
    + destruct Hvs as [->| ->]; cbn.
      * split; [exists "u"; split; [exists (VObj (OStr "u")); split; [left|done]|done]|].
        split; [exists "u"; split; [exists (VObj (OStr "u")); split; [left|done]|split; [by intros ?%elem_of_list_singleton|done]]|].
        split; [exists "u"; split; [exists (VObj (OStr "u")); split; [left|done]|split; [by intros ?%elem_of_list_singleton|by vm_compute]]|].
        split; [intros _; left|]. intros s Hs Hm%elem_of_list_singleton. subst s. rewrite !elem_of_cons, elem_of_nil in Hs. by destruct Hs as [[=]|[[=]|[]]].
      * split; [exists "w"; split; [exists (VObj (OStr "w")); split; [left|done]|done]|].
        split; [exists "w"; split; [exists (VObj (OStr "w")); split; [left|done]|split; [by intros ?%elem_of_list_singleton|done]]|].
        split; [exists "w"; split; [exists (VObj (OStr "w")); split; [left|done]|split; [by intros ?%elem_of_list_singleton|by vm_compute]]|].
        split; [intros _; left|]. intros s Hs Hm%elem_of_list_singleton. subst s. rewrite !elem_of_cons, elem_of_nil in Hs. by destruct Hs as [[=]|[[=]|[]]].
  - by vm_compute.
Qed.
(** Three files for two pieces. *)
Lemma C95_empty_file_refuted_main : exists h d, wf h d /\ d_viewed d = false /\
  length (pieces (abs h d) 3) = 2 /\
  forall arrival logs, arrival ≡ₚ ["out/r0.csv"; "out/r1.csv"; "out/r2.csv"] ->
  match c95_in 2 d h arrival logs with Ok (DError, _) => True | _ => False end.
Proof.
  exists c95_h, c95_d. destruct C95_check_main as (W & V & C & _). split; [exact W|]. split; [exact V|]. split; [by vm_compute|]. intros arrival logs Ha.
  unfold c95_in. destruct (c94_out 2 (fun _ => true) c95_d c95_h) as [[[[ps fs'] failed] h1]|] eqn:E.
  2: { assert (H : match c94_out 2 (fun _ => true) c95_d c95_h with Ok _ => true | Panic => false end = true) by (by vm_compute). by rewrite E in H. }
  assert (H : match c94_out 2 (fun _ => true) c95_d c95_h with Ok (ps, fs, f, _) => bool_decide (ps = ["out/r0.csv"; "out/r1.csv"; "out/r2.csv"] /\ f = false) | Panic => false end = true) by (by vm_compute).
  rewrite E in H. apply bool_decide_eq_true in H as [-> ->].
  rewrite (C95_more_files_main c94_order (fun _ => true) unix (WSpec "" 2 false) c95_h c95_d "out" "r" c94_disk fs' ["out/r0.csv"; "out/r1.csv"; "out/r2.csv"] h1 plain_d ro0 arrival logs).
  - exact I.
  - exact W.
  - intros i. apply names_order_perm.
  - exact C.
  - reflexivity.
  - apply C85_check_main.
  - apply C85_check_main.
  - reflexivity.
  - split; done.
  - intros p Hp Hd. unfold c94_disk in Hp. apply (lookup_insert_is_Some (M:=gmap string)) in Hp as [<-|[_ Hp]]; [left|].
    destruct Hp as [x Hp]. apply (lookup_singleton_Some (M:=gmap string)) in Hp as [<- _]. by vm_compute in Hd.
  - exact E.
  - assert (H : length (pieces (abs c95_h c95_d) 3) = 2) by (by vm_compute). cbn [length]. rewrite H. lia.
  - exact Ha.
Qed.
(** The floats 1 and 1 in one of the files become bools. *)
Lemma C95_types_refuted_main : exists h d, wf h d /\ d_viewed d = false /\ length (pieces (abs h d) 2) = 2 /\
  t_cols (abs h d) !! (KFloat, "b") = Some [VFloat f_half; VFloat f64_zero; VFloat f64_one; VFloat f64_one] /\
  match c95_in 3 d h ["out/r0.csv"; "out/r1.csv"] [[["f"; "a"; "b"; "s"]]; [["f"; "a"; "b"; "s"]]] with
  | Ok (DRaw r, h) => raw_cols h r !! (KFloat, "b") = Some [VFloat f_half; VFloat f64_zero] /\ raw_cols h r !! (KBool, "b") = Some [VBool true; VBool true] /\
      to_dataframe r h = Panic
  | _ => False
  end.
Proof. exists ex_h, ex_d. split; [exact ex_wf|]. split_and!; by vm_compute. Qed.
End wit.
