(** Proofs of the theorems about Encode. *)
From Verif Require Export P_Encode P_ReadMain.

(** The visible cells of the string columns are stored at places of their own. *)
Definition str_cells_distinct (h : heap) (d : dframe) : Prop :=
  forall c k j1 j2 a, c ∈ t_strs (abs h d) ->
    cell_of h d (KObj, c) j1 = Some a -> cell_of h d k j2 = Some a -> k = (KObj, c) /\ j1 = j2.

Lemma concat_NoDup {A} (ls : list (list A)) :
  (forall i l, ls !! i = Some l -> NoDup l) ->
  (forall i j l1 l2 x, ls !! i = Some l1 -> ls !! j = Some l2 -> x ∈ l1 -> x ∈ l2 -> i = j) -> NoDup (concat ls).
Proof.
  induction ls as [|l ls IH]; intros H1 H2; [constructor|]. simpl. apply NoDup_app. split; [by apply (H1 0)|]. split.
  - intros x Hx Hc. apply elem_of_list_In, in_concat in Hc as (l2 & Hl2 & Hx2).
    apply elem_of_list_In, elem_of_list_lookup in Hl2 as (i & Hi).
    assert (0 = S i); [|lia]. eapply H2; [done|exact Hi|done|]. by apply elem_of_list_In.
  - apply IH.
    + intros i l' Hi. by apply (H1 (S i)).
    + intros i j l1 l2 x Hi Hj Hx1 Hx2. assert (S i = S j); [by eapply (H2 (S i) (S j))|lia].
Qed.

Section enc.
Context {rt : GoRT}.
Lemma distinct_addrs h d ord : wf h d -> str_cells_distinct h d -> ord ≡ₚ elements (t_strs (abs h d)) ->
  NoDup (all_addrs (mp h (r_maps (d_raw d))) d ord).
Proof.
  intros W Hd Ho.
  assert (Hin : forall c, c ∈ ord <-> c ∈ t_strs (abs h d)) by (intros c; by rewrite Ho, elem_of_elements).
  assert (Hnd : NoDup ord) by (rewrite Ho; apply NoDup_elements).
  apply concat_NoDup.
  - intros i l Hl. rewrite list_lookup_fmap in Hl. destruct (ord !! i) as [c|] eqn:Ec; [|done].
    simpl in Hl. injection Hl as <-. apply NoDup_alt. intros j1 j2 a H1 H2.
    apply elem_of_list_lookup_2, Hin in Ec. unfold col_addrs in H1, H2.
    destruct (mp h (r_maps (d_raw d)) !! (KObj, c)) as [s|] eqn:Es; [|done].
    rewrite list_lookup_fmap in H1, H2.
    destruct (inds d !! j1) as [i1|] eqn:E1; [|done]. destruct (inds d !! j2) as [i2|] eqn:E2; [|done].
    simpl in H1, H2. injection H1 as <-. injection H2 as Hq.
    eapply (Hd c (KObj, c) j1 j2); [done|unfold cell_of; rewrite Es; simpl; by rewrite E1|].
    unfold cell_of. rewrite Es. simpl. rewrite E2. simpl. do 2 f_equal. lia.
  - intros i j l1 l2 a H1 H2 Ha1 Ha2. rewrite list_lookup_fmap in H1, H2.
    destruct (ord !! i) as [c1|] eqn:Ec1; [|done]. destruct (ord !! j) as [c2|] eqn:Ec2; [|done].
    simpl in H1, H2. injection H1 as <-. injection H2 as <-.
    apply elem_col_addrs in Ha1 as (j1 & Hj1). apply elem_col_addrs in Ha2 as (j2 & Hj2).
    destruct (Hd c1 (KObj, c2) j1 j2 a) as [Hq _]; [apply Hin; by eapply elem_of_list_lookup_2|done|done|].
    injection Hq as ->. by eapply NoDup_lookup.
Qed.
(** A string cell of the table. *)
Lemma all_addrs_str_value h d ord a v : wf h d -> ord ≡ₚ elements (t_strs (abs h d)) ->
  a ∈ all_addrs (mp h (r_maps (d_raw d))) d ord -> cell_val h a = Some v -> str_value (abs h d) v.
Proof.
  intros W Ho (c & Hc & Ha)%elem_all_addrs Hv. apply elem_col_addrs in Ha as (j & Hj).
  rewrite Ho, elem_of_elements in Hc. pose proof (t_cell_abs h d (KObj, c) j W) as Ht.
  rewrite Hj in Ht. simpl in Ht. rewrite Hv in Ht. unfold t_cell in Ht.
  destruct (t_cols (abs h d) !! (KObj, c)) as [col|] eqn:E; [|done]. exists c, col. do 2 (split; [done|]).
  by eapply elem_of_list_lookup_2.
Qed.
Lemma str_value_addr h d ord v : wf h d -> ord ≡ₚ elements (t_strs (abs h d)) -> str_value (abs h d) v ->
  exists a, a ∈ all_addrs (mp h (r_maps (d_raw d))) d ord /\ cell_val h a = Some v.
Proof.
  intros W Ho (c & col & Hc & E & Hv). apply elem_of_list_lookup in Hv as (j & Hj).
  pose proof (t_cell_abs h d (KObj, c) j W) as Ht. unfold t_cell in Ht. rewrite E in Ht. cbn [option_bind mbind] in Ht.
  simpl in Ht. rewrite Hj in Ht. destruct (cell_of h d (KObj, c) j) as [a|] eqn:Ea; [|done]. simpl in Ht.
  exists a. split; [|done]. apply elem_all_addrs. exists c. split; [by rewrite Ho, elem_of_elements|].
  apply elem_col_addrs. eauto.
Qed.
End enc.

Lemma C40_encode_main : forall (rt : GoRT) (codecs : nat -> codec) (order : gset string -> list string)
    (h : heap) (d : dframe) (new : option nat),
  (forall s, order s ≡ₚ elements s) -> wf h d -> str_cells_distinct h d ->
  let t := abs h d in let conv := convert codecs (t_enc t) new in
  match encode_df codecs order d new h with
  | Ok ((false, d'), h') =>
      (t_enc t = new /\ d' = d /\ h' = h) \/
      (t_enc t <> new /\ wf h' d' /\ abs h' d' = t_encode conv new t /\
       (* every string was re-encoded *)
       (forall s, str_value t (VObj (OStr s)) -> is_Some (conv s)) /\
       (* no other cell of any dataframe changed, no structure *)
       forall d2, wf h d2 -> wf h' d2 /\ same_shape (abs h d2) (abs h' d2) /\
         forall k j a, cell_of h d2 k j = Some a ->
           (forall c i, c ∈ t_strs t -> cell_of h d (KObj, c) i <> Some a) ->
           t_cell (abs h' d2) k j = t_cell (abs h d2) k j)
  | Ok ((true, d'), h') =>
      d' = d /\ (exists s, str_value t (VObj (OStr s)) /\ conv s = None) /\
      (* nothing at all has changed if what could be converted can be converted back *)
      ((forall s s', str_value t (VObj (OStr s)) -> conv s = Some s' -> convert codecs new (t_enc t) s' = Some s) -> h' = h)
  | Panic =>
      (exists c, c ∈ t_strs t /\ t_cols t !! (KObj, c) = None /\ 0 < t_rows t) \/
      (exists v, str_value t v /\ ~ is_str v)
  end.
Proof.
  intros rt codecs order h d new Hord W Hd t conv. unfold encode_df.
  change (t_enc t) with (r_enc (d_raw d)) in *. destruct (decide (r_enc (d_raw d) = new)) as [E|E].
  { unfold ret. cbv beta iota. left. done. }
  unfold bind at 1. unfold get_ostr at 1. cbv beta iota.
  change (ostr h (r_strs (d_raw d))) with (t_strs t). set (ord := order (t_strs t)).
  assert (Ho : ord ≡ₚ elements (t_strs (abs h d))) by apply Hord.
  pose proof (distinct_addrs h d ord W Hd Ho) as Hnd.
  pose proof (encode_loop_spec codecs h d W (r_enc (d_raw d)) new ord [] h Hnd ltac:(constructor) (mapped_nil _ _)) as H.
  unfold bind at 1. destruct (encode_loop codecs (r_enc (d_raw d)) new d [] ord h) as [[[|] h']|]; unfold ret; cbv beta iota.
  - destruct H as ((a & v & Ha & Hv & Hf) & Hun). split; [done|]. split.
    + apply enc_fun_none in Hf as (s & -> & Hs). exists s. split; [|done]. by eapply all_addrs_str_value.
    + intros Hinv. apply Hun. intros b u u' Hb Hu Hf'. rewrite app_nil_l in Hb. cbn zeta in Hf'.
      destruct u as [[|s|]|?|?|?]; simpl in Hf'; try done; [by injection Hf' as <-|].
      destruct (convert codecs (r_enc (d_raw d)) new s) as [s'|] eqn:Ec; [|done]. injection Hf' as <-. simpl.
      rewrite (Hinv s s'); [done| |done]. by eapply all_addrs_str_value.
  - right. split; [done|]. destruct H as (Hm & Hcols). rewrite app_nil_l in Hm.
    destruct Hm as (Hw & U & A). pose proof (wrt_wf _ _ _ Hw W) as W'.
    assert (Habs' : abs h' (set_enc d new) = Table (t_rows (abs h' d)) (t_cols (abs h' d)) (t_strs (abs h' d)) new (t_cpu (abs h' d))) by done.
    assert (Wn' : wf h' (set_enc d new)). { destruct W' as [n W']. exists n. destruct W'. by split. }
    split; [done|]. split; [|split].
    + destruct (wrt_shape h h' d Hw) as (S1 & S2 & S3 & S4 & S5). rewrite Habs'. unfold t_encode.
      rewrite S1, S3, S5. fold t. f_equal. apply map_eq. intros k. rewrite map_lookup_imap.
      pose proof (abs_ok h d W) as Ok1. pose proof (abs_ok h' d W') as Ok2. fold t in Ok1, S2.
      destruct (t_cols t !! k) as [col|] eqn:Ek.
      2:{ apply not_elem_of_dom in Ek. change (None ≫= _) with (@None (list val)). apply not_elem_of_dom. by rewrite S2. }
      assert (Hk' : is_Some (t_cols (abs h' d) !! k)).
      { apply elem_of_dom. rewrite S2. by eapply elem_of_dom_2. }
      destruct Hk' as [col' Ek']. rewrite Ek'. cbn [mbind option_bind]. f_equal.
      destruct (Ok1 _ _ Ek) as [L1 _]. destruct (Ok2 _ _ Ek') as [L2 _]. rewrite S1 in L2. fold t in L2.
      assert (Hcell : forall j, col' !! j = cell_of h d k j ≫= cell_val h').
      { intros j. rewrite <- (wrt_cell_of h h' d k j Hw), <- t_cell_abs by done. unfold t_cell. by rewrite Ek'. }
      assert (Hcell0 : forall j, col !! j = cell_of h d k j ≫= cell_val h).
      { intros j. rewrite <- t_cell_abs by done. unfold t_cell. fold t. by rewrite Ek. }
      apply list_eq. intros j. rewrite Hcell.
      destruct (decide (k.1 = KObj ∧ k.2 ∈ t_strs t)) as [[Hk1 Hk2]|Hk].
      * rewrite list_lookup_fmap, Hcell0. destruct (cell_of h d k j) as [a|] eqn:Ea; [|done]. simpl.
        destruct (A a) as (v & v' & E1 & E2 & E3).
        { apply elem_all_addrs. exists k.2. split; [by rewrite Ho, elem_of_elements|]. apply elem_col_addrs. exists j.
          destruct k as [k1 k2]. simpl in Hk1. by subst k1. }
        rewrite E1, E3. simpl. by rewrite (enc_fun_val _ _ _ E2).
      * rewrite Hcell0. destruct (cell_of h d k j) as [a|] eqn:Ea; [|done]. simpl. apply U.
        intros (c & Hc & Ha)%elem_all_addrs. apply elem_col_addrs in Ha as (i & Hi).
        rewrite Ho, elem_of_elements in Hc. destruct (Hd c k i j a Hc Hi Ea) as [-> _]. apply Hk. done.
    + intros s Hs. destruct (str_value_addr h d ord _ W Ho Hs) as (a & Ha & Hv). destruct (A a Ha) as (v & v' & E1 & E2 & E3).
      rewrite Hv in E1. injection E1 as <-. simpl in E2. fold conv in E2. destruct (conv s); [by eexists|done].
    + intros d2 W2. split; [by eapply wrt_wf|]. split; [by apply wrt_shape|]. intros k j a Ha Hn.
      rewrite !t_cell_abs by (done || by eapply wrt_wf). rewrite (wrt_cell_of _ _ _ _ _ Hw), Ha. simpl. apply U.
      intros (c & Hc & Hca)%elem_all_addrs. apply elem_col_addrs in Hca as (i & Hi). eapply (Hn c i); [|done].
      by rewrite Ho, elem_of_elements in Hc.
  - destruct H as [(c & Hc & Hm & Hn)|(a & v & Ha & Hv & Hf)].
    + left. exists c. rewrite Ho, elem_of_elements in Hc. split; [done|]. split; [|change (t_rows t) with (num_rows d); lia].
      unfold t. simpl. by rewrite lookup_fmap, Hm.
    + right. exists v. split; [by eapply all_addrs_str_value|]. by apply enc_fun_panic in Hf.
Qed.

Lemma cells_distinct_str h d : cells_distinct h d -> str_cells_distinct h d.
Proof. intros H c k j1 j2 a _ H1 H2. by destruct (H _ _ _ _ _ H1 H2) as [<- <-]. Qed.

(** Witnesses. Encoding 0 stands for one whose decoder replaces what it does not
    know (as the decoders of golang.org/x/text do), encoding 1 for one that
    appends a byte. *)
Definition ex_codecs (e : nat) : codec :=
  match e with
  | 0 => Codec (fun s => if decide (s = "yy") then None else Some "?") (fun s => Some s)
  | _ => Codec (fun s => Some (String.substring 0 (String.length s - 1) s)) (fun s => Some (s +:+ "!"))
  end.
Section wit.
Existing Instance ex_rt.
Definition run_enc (m : M (bool * dframe)) (h : heap) : bool * dframe * heap :=
  match m h with Ok p => p | Panic => ((false, dummy), heap0) end.
Definition c40_rep := run_enc (encode_df ex_codecs elements ex_v (Some 1)) ex_vh.
Definition c40_d0 := set_enc ex_d (Some 0).
Definition c40_lossy := run_enc (encode_df ex_codecs elements c40_d0 None) ex_h.
Definition c40_v := run_df (index_view ex_d [0]%Z) ex_h.
Definition c40_r := run_enc (encode_df ex_codecs elements c40_v.1 (Some 1)) c40_v.2.
End wit.
Definition has_vals (t : table) (k : key) (vs : list val) : Prop := t_cols t !! k = Some vs.
(** A view showing a row twice: its string is encoded twice. *)
Lemma C40_repeated_rows_refuted_main : exists (rt : GoRT) (codecs : nat -> codec) (h : heap) (d d' : dframe) (h' : heap),
  wf h d /\ encode_df codecs elements d (Some 1) h = Ok ((false, d'), h') /\
  has_vals (abs h d) (KObj, "s") [VObj (OStr "yy"); VObj (OStr "x"); VObj (OStr "yy")] /\
  convert codecs None (Some 1) "yy" = Some "yy!" /\
  has_vals (abs h' d') (KObj, "s") [VObj (OStr "yy!!"); VObj (OStr "x!"); VObj (OStr "yy!!")].
Proof.
  exists ex_rt, ex_codecs, ex_vh, ex_v, c40_rep.1.2, c40_rep.2. split; [exact ex_v_wf|].
  split; [by vm_compute|]. split; [by vm_compute|]. split; by vm_compute.
Qed.
(** An encoder that does not give back what its decoder replaced: Encode returns
    an error and has changed a string. *)
Lemma C40_lossy_refuted_main : exists (rt : GoRT) (codecs : nat -> codec) (h : heap) (d : dframe) (h' : heap),
  wf h d /\ str_cells_distinct h d /\ encode_df codecs elements d None h = Ok ((true, d), h') /\
  has_vals (abs h d) (KObj, "s") [VObj (OStr "x"); VObj ONil; VObj (OStr "yy"); VObj (OStr "x")] /\
  has_vals (abs h' d) (KObj, "s") [VObj (OStr "?"); VObj ONil; VObj (OStr "yy"); VObj (OStr "x")].
Proof.
  exists ex_rt, ex_codecs, ex_h, c40_d0, c40_lossy.2. split; [apply (wf_check_sound _ _ 4); by vm_compute|].
  split; [apply cells_distinct_str, cells_distinct_sound; by vm_compute|]. split; [by vm_compute|]. split; by vm_compute.
Qed.
(** Encoding a view re-encodes the strings of the dataframe it was taken from,
    which still claims to be in the old encoding. *)
Lemma C40_parent_refuted_main : exists (rt : GoRT) (codecs : nat -> codec) (h : heap) (p d d' : dframe) (h' : heap),
  wf h p /\ wf h d /\ str_cells_distinct h d /\ encode_df codecs elements d (Some 1) h = Ok ((false, d'), h') /\
  t_enc (abs h' p) = None /\ t_enc (abs h' d') = Some 1 /\
  has_vals (abs h p) (KObj, "s") [VObj (OStr "x"); VObj ONil; VObj (OStr "yy"); VObj (OStr "x")] /\
  has_vals (abs h' p) (KObj, "s") [VObj (OStr "x!"); VObj ONil; VObj (OStr "yy"); VObj (OStr "x")].
Proof.
  exists ex_rt, ex_codecs, c40_v.2, ex_d, c40_v.1, c40_r.1.2, c40_r.2. split; [apply (wf_check_sound _ _ 4); by vm_compute|].
  split; [apply (wf_check_sound _ _ 4); by vm_compute|].
  split; [apply cells_distinct_str, cells_distinct_sound; by vm_compute|]. do 4 (split; [by vm_compute|]). by vm_compute.
Qed.
