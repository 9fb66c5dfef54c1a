(** Encode. *)
From Verif Require Export M_Encode Spec_Encode P_Cells.

Definition convert (codecs : nat -> codec) (from to : option nat) (s : string) : option string :=
  u ← match from with Some e => c_dec (codecs e) s | None => Some s end;
  match to with Some e => c_enc (codecs e) u | None => Some u end.

Definition enc_fun (conv : string -> option string) (v : val) : res (option val) :=
  match v with
  | VObj ONil => Ok (Some v)
  | VObj (OStr s) => Ok ((fun s => VObj (OStr s)) <$> conv s)
  | _ => Panic
  end.
Lemma enc_fun_kind conv : keeps_kind (enc_fun conv).
Proof. intros [[|s|]|f|z|b] v' E; simpl in E; try done; [by injection E as <-|]. destruct (conv s); [|done]. by injection E as <-. Qed.
Lemma enc_fun_panic conv v : enc_fun conv v = Panic <-> ~ is_str v.
Proof. destruct v as [[|s|]|f|z|b]; simpl; split; try done; try (by intros _ []); intros H; by exfalso; apply H. Qed.
Lemma enc_fun_str conv v v' : enc_fun conv v = Ok (Some v') -> is_str v'.
Proof. destruct v as [[|s|]|f|z|b]; simpl; intros E; try done; [by injection E as <-|]. destruct (conv s); [|done]. by injection E as <-. Qed.
Lemma enc_fun_val conv v v' : enc_fun conv v = Ok (Some v') -> v' = conv_val conv v.
Proof. destruct v as [[|s|]|f|z|b]; simpl; intros E; try done; [by injection E as <-|]. destruct (conv s); [|done]. by injection E as <-. Qed.
Lemma enc_fun_none conv v : enc_fun conv v = Ok None <-> exists s, v = VObj (OStr s) /\ conv s = None.
Proof.
  destruct v as [[|s|]|f|z|b]; simpl; split; try done; try (by intros (? & ? & ?)).
  - destruct (conv s) eqn:E; [done|]. by exists s.
  - intros (s' & E & E'). injection E as <-. by rewrite E'.
Qed.

Section frame.
Context {rt : GoRT} (codecs : nat -> codec).

Lemma inplace_crun from to s l : forall j h, Forall (fun i => i < s_len s) l ->
  inplace_encoding (decoder codecs from) (encoder codecs to) s l j h =
  crun (enc_fun (convert codecs from to)) (sl_addr s <$> l) j h.
Proof.
  induction l as [|i l IH]; intros j h Hl; [done|].
  apply Forall_cons in Hl as [Hi Hl]. rewrite fmap_cons. cbn [inplace_encoding crun].
  unfold bind at 1. rewrite sl_rd_cell by done. destruct (cell_val h (sl_addr s i)) as [v|] eqn:Ev; [|done].
  destruct v as [[|x|]|f|z|b]; cbn [enc_fun]; try done.
  - rewrite IH by done. by rewrite upd_id.
  - assert (Es : forall A (k : string -> res A) (e : res A),
      match convert codecs from to x with Some w => k w | None => e end =
      match step (decoder codecs from) x with None => e | Some u => match step (encoder codecs to) u with None => e | Some w => k w end end).
    { intros A k e. unfold convert, decoder, encoder, step. destruct from as [e1|]; simpl.
      - destruct (c_dec (codecs e1) x); simpl; [|done]. by destruct to.
      - by destruct to. }
    transitivity (match convert codecs from to x with Some w => crun (enc_fun (convert codecs from to)) (sl_addr s <$> l) (S j) (upd h (sl_addr s i) (VObj (OStr w))) | None => Ok (Some j, h) end).
    + rewrite Es. destruct (step (decoder codecs from) x) as [u|]; [|done]. destruct (step (encoder codecs to) u) as [w|]; [|done].
      unfold bind. rewrite sl_wr_cell by done. by apply IH.
    + by destruct (convert codecs from to x).
Qed.

(** A loop over strings never panics and only touches its cells. *)
Lemma crun_strs conv al j h : NoDup al -> (forall a, a ∈ al -> exists v, cell_val h a = Some v /\ is_str v) ->
  exists r h', crun (enc_fun conv) al j h = Ok (r, h') /\ wrt h h' /\
    (forall b v, cell_val h b = Some v -> is_str v -> exists v', cell_val h' b = Some v' /\ is_str v').
Proof.
  intros Hnd Hv. pose proof (crun_spec (enc_fun conv) al j h (enc_fun_kind conv) Hnd) as H.
  assert (M : forall bl h', mapped (enc_fun conv) bl h h' -> wrt h h' /\
    (forall b v, cell_val h b = Some v -> is_str v -> exists v', cell_val h' b = Some v' /\ is_str v')).
  { intros bl h' (W & U & A). split; [done|]. intros b v Hb Hs. destruct (decide (b ∈ bl)) as [Hi|Hi].
    - destruct (A b Hi) as (v1 & v' & _ & E & E'). exists v'. split; [done|]. by eapply enc_fun_str.
    - exists v. by rewrite U. }
  destruct (crun (enc_fun conv) al j h) as [[[w|] h']|].
  - destruct H as (i & a & v & _ & _ & _ & _ & Hm); [naive_solver|]. eexists _, _. split; [done|]. by eapply M.
  - eexists _, _. split; [done|]. apply (M al). apply H. naive_solver.
  - destruct H as (a & v & Ha & E & F); [naive_solver|]. apply enc_fun_panic in F.
    destruct (Hv a Ha) as (u & E' & Hs). by simplify_eq.
Qed.

(** The cells of a string column of the dataframe. *)
Definition col_addrs (m : gmap key slice) (d : dframe) (c : string) : list addr :=
  match m !! (KObj, c) with Some s => sl_addr s <$> inds d | None => [] end.
Definition all_addrs (m : gmap key slice) (d : dframe) (cs : list string) : list addr :=
  concat (col_addrs m d <$> cs).
Lemma all_addrs_cons m d c cs : all_addrs m d (c :: cs) = col_addrs m d c ++ all_addrs m d cs.
Proof. done. Qed.
Lemma all_addrs_app m d cs cs' : all_addrs m d (cs ++ cs') = all_addrs m d cs ++ all_addrs m d cs'.
Proof. unfold all_addrs. by rewrite fmap_app, concat_app. Qed.
Lemma elem_all_addrs m d cs a : a ∈ all_addrs m d cs <-> exists c, c ∈ cs /\ a ∈ col_addrs m d c.
Proof.
  unfold all_addrs. rewrite elem_of_list_In, in_concat. split.
  - intros (l & Hl & Ha). apply elem_of_list_In, elem_of_list_fmap in Hl as (c & -> & Hc).
    exists c. split; [done|]. by apply elem_of_list_In.
  - intros (c & Hc & Ha). exists (col_addrs m d c). split; [|by apply elem_of_list_In].
    apply elem_of_list_In, elem_of_list_fmap. eauto.
Qed.

Section fixed.
Context (h0 : heap) (d : dframe) (W : wf h0 d).
Let m := mp h0 (r_maps (d_raw d)).

Lemma elem_col_addrs c a : a ∈ col_addrs m d c <-> exists j, cell_of h0 d (KObj, c) j = Some a.
Proof.
  unfold col_addrs, cell_of, m. destruct (mp h0 (r_maps (d_raw d)) !! (KObj, c)) as [s|]; simpl.
  - rewrite elem_of_list_fmap. split.
    + intros (i & -> & Hi). apply elem_of_list_lookup in Hi as (j & Hj). exists j. by rewrite Hj.
    + intros (j & Hj). destruct (inds d !! j) as [i|] eqn:E; [|done]. simpl in Hj. injection Hj as <-.
      exists i. split; [done|]. by eapply elem_of_list_lookup_2.
  - split; [by intros ?%elem_of_nil|]. by intros (j & ?).
Qed.
Lemma col_addrs_valid c a : a ∈ col_addrs m d c -> exists v, cell_val h0 a = Some v.
Proof. intros (j & Hj)%elem_col_addrs. destruct (cell_of_valid _ _ _ _ _ W Hj) as (_ & v & Hv & _). eauto. Qed.
Lemma all_addrs_valid cs a : a ∈ all_addrs m d cs -> exists v, cell_val h0 a = Some v.
Proof. intros (c & _ & Ha)%elem_all_addrs. by eapply col_addrs_valid. Qed.

(** Running inplaceEncoding on a column of any later heap with these maps. *)
Lemma inplace_col from to c k h : wrt h0 h -> is_Some (m !! (KObj, c)) \/ num_rows d = 0 ->
  inplace_encoding (decoder codecs from) (encoder codecs to)
    (default nil_slice (m !! (KObj, c))) (take k (inds d)) 0 h =
  crun (enc_fun (convert codecs from to)) (take k (col_addrs m d c)) 0 h.
Proof.
  intros Hw Hc. unfold col_addrs. pose proof W as [n Wn].
  destruct (m !! (KObj, c)) as [s|] eqn:E.
  - simpl. rewrite inplace_crun.
    + by rewrite fmap_take.
    + destruct (wfn_col _ _ _ _ _ Wn E) as (_ & Hn & _). apply Forall_take. rewrite Hn. apply (wf_rng _ _ _ Wn).
  - destruct Hc as [[? ?]|H0]; [done|]. pose proof (wfn_inds_length _ _ _ Wn) as Hl. rewrite H0 in Hl.
    apply nil_length_inv in Hl. rewrite Hl. by rewrite take_nil, (take_nil k).
Qed.
Lemma inplace_col_all from to c h : wrt h0 h -> is_Some (m !! (KObj, c)) \/ num_rows d = 0 ->
  inplace_encoding (decoder codecs from) (encoder codecs to)
    (default nil_slice (m !! (KObj, c))) (inds d) 0 h =
  crun (enc_fun (convert codecs from to)) (col_addrs m d c) 0 h.
Proof.
  intros Hw Hc. pose proof (inplace_col from to c (length (inds d)) h Hw Hc) as H.
  rewrite firstn_all in H. rewrite H. f_equal. apply take_ge. unfold col_addrs. destruct (m !! _); [by rewrite fmap_length|simpl; lia].
Qed.
Lemma inplace_missing from to c h : wrt h0 h -> m !! (KObj, c) = None -> num_rows d <> 0 ->
  inplace_encoding from to (default nil_slice (m !! (KObj, c))) (inds d) 0 h = Panic.
Proof.
  intros Hw Hc Hn. rewrite Hc. simpl. pose proof W as [n Wn].
  pose proof (wfn_inds_length _ _ _ Wn) as Hl. destruct (inds d) as [|i l]; [simpl in Hl; lia|]. done.
Qed.

Context (old new : option nat).
Let f := enc_fun (convert codecs old new).
Let g := enc_fun (convert codecs new old).

(** The revert loop. *)
Definition revert_loop (previous : list string) : M unit :=
  forM previous (fun p =>
    let* m := get_mp (r_maps (d_raw d)) in
    let* _ := inplace_encoding (decoder codecs new) (encoder codecs old) (default nil_slice (m !! (KObj, p))) (inds d) 0 in
    ret tt).
Lemma revert_total previous : forall h, wrt h0 h -> NoDup (all_addrs m d previous) ->
  Forall (fun c => is_Some (m !! (KObj, c)) \/ num_rows d = 0) previous ->
  (forall a, a ∈ all_addrs m d previous -> exists v, cell_val h a = Some v /\ is_str v) ->
  exists h', revert_loop previous h = Ok (tt, h').
Proof.
  induction previous as [|p previous IH]; intros h Hw Hnd Hc Hs; [by eexists|].
  rewrite all_addrs_cons in Hnd. apply NoDup_app in Hnd as (Hnd1 & Hnd2 & Hnd3).
  apply Forall_cons in Hc as [Hc1 Hc].
  destruct (crun_strs (convert codecs new old) (col_addrs m d p) 0 h) as (r & h1 & E & W1 & S1); [done| |].
  { intros a Ha. apply Hs. rewrite all_addrs_cons. set_solver. }
  destruct (IH h1) as (h2 & E2); [by etrans|done|done| |].
  { intros a Ha. destruct (Hs a) as (v & Hv & Hsv); [rewrite all_addrs_cons; set_solver|]. by eapply S1. }
  exists h2. unfold revert_loop in *. cbn [forM]. unfold bind at 1 2. unfold get_mp at 1. cbv beta iota.
  unfold bind at 1. rewrite (wrt_mp _ _ _ Hw). fold m. rewrite inplace_col_all by done. fold g in E |- *. rewrite E. exact E2.
Qed.
Lemma revert_mapped previous : forall h, wrt h0 h -> NoDup (all_addrs m d previous) ->
  Forall (fun c => is_Some (m !! (KObj, c)) \/ num_rows d = 0) previous ->
  (forall a, a ∈ all_addrs m d previous -> exists v v', cell_val h a = Some v /\ g v = Ok (Some v')) ->
  exists h', revert_loop previous h = Ok (tt, h') /\ mapped g (all_addrs m d previous) h h'.
Proof.
  induction previous as [|p previous IH]; intros h Hw Hnd Hc Hs.
  { exists h. split; [done|]. apply mapped_nil. }
  rewrite all_addrs_cons in Hnd. apply NoDup_app in Hnd as (Hnd1 & Hnd2 & Hnd3).
  apply Forall_cons in Hc as [Hc1 Hc].
  destruct (crun_total g (col_addrs m d p) 0 h (enc_fun_kind _) Hnd1) as (h1 & E & M1).
  { intros a Ha. apply Hs. rewrite all_addrs_cons. set_solver. }
  pose proof M1 as (W1 & U1 & A1).
  destruct (IH h1) as (h2 & E2 & M2); [by etrans|done|done| |].
  { intros a Ha. rewrite U1; [apply Hs; rewrite all_addrs_cons; set_solver|]. intros Ha'. by eapply Hnd2. }
  exists h2. split.
  - unfold revert_loop in *. cbn [forM]. unfold bind at 1 2. unfold get_mp at 1. cbv beta iota.
    unfold bind at 1. rewrite (wrt_mp _ _ _ Hw). fold m. rewrite inplace_col_all by done. fold g. rewrite E. exact E2.
  - rewrite all_addrs_cons. by eapply mapped_app.
Qed.

(** The values whose conversion can be undone. *)
Definition undoable (cs : list string) : Prop := forall a v v', a ∈ all_addrs m d cs ->
  cell_val h0 a = Some v -> f v = Ok (Some v') -> g v' = Ok (Some v).

Lemma encode_loop_spec cols : forall previous h, NoDup (all_addrs m d (previous ++ cols)) ->
  Forall (fun c => is_Some (m !! (KObj, c)) \/ num_rows d = 0) previous ->
  mapped f (all_addrs m d previous) h0 h ->
  match encode_loop codecs old new d previous cols h with
  | Ok (false, h') => mapped f (all_addrs m d (previous ++ cols)) h0 h' /\
      Forall (fun c => is_Some (m !! (KObj, c)) \/ num_rows d = 0) cols
  | Ok (true, h') => (exists a v, a ∈ all_addrs m d cols /\ cell_val h0 a = Some v /\ f v = Ok None) /\
      (undoable (previous ++ cols) -> h' = h0)
  | Panic => (exists c, c ∈ cols /\ m !! (KObj, c) = None /\ num_rows d <> 0) \/
      (exists a v, a ∈ all_addrs m d cols /\ cell_val h0 a = Some v /\ f v = Panic)
  end.
Proof.
  induction cols as [|c cols IH]; intros previous h Hnd Hp Hm.
  { simpl. rewrite app_nil_r. done. }
  pose proof Hm as (Hw & U & A). cbn [encode_loop]. unfold bind at 1. unfold get_mp at 1. cbv beta iota.
  rewrite (wrt_mp _ _ _ Hw). fold m.
  destruct (decide (is_Some (m !! (KObj, c)) \/ num_rows d = 0)) as [Hc|Hc].
  2:{ assert (m !! (KObj, c) = None /\ num_rows d <> 0) as [Hc1 Hc2].
      { split; [|lia]. destruct (m !! (KObj, c)) eqn:E; [|done]. exfalso. apply Hc. left. by eexists. }
      unfold bind at 1. rewrite inplace_missing by done. left. exists c. set_solver. }
  pose proof Hnd as Hnd'. rewrite all_addrs_app, all_addrs_cons in Hnd.
  apply NoDup_app in Hnd as (Hnd1 & Hnd2 & Hnd3). pose proof (NoDup_app (col_addrs m d c) (all_addrs m d cols)) as [Hx _].
  destruct (Hx Hnd3) as (Hnd4 & Hnd5 & Hnd6). clear Hx.
  assert (Uc : forall a, a ∈ col_addrs m d c -> cell_val h a = cell_val h0 a).
  { intros a Ha. apply U. intros Ha'. eapply Hnd2; [exact Ha'|]. set_solver. }
  unfold bind at 1. rewrite inplace_col_all by done. fold f.
  pose proof (crun_spec f (col_addrs m d c) 0 h (enc_fun_kind _) Hnd4) as H.
  assert (Hv : forall a, a ∈ col_addrs m d c -> exists v, cell_val h a = Some v).
  { intros a Ha. rewrite Uc by done. by eapply col_addrs_valid. }
  destruct (crun f (col_addrs m d c) 0 h) as [[[w|] h1]|].
  - destruct (H Hv) as (i & a & v & -> & Hi & Ea & Ef & M1). clear H.
    assert (Hca : a ∈ all_addrs m d (c :: cols)).
    { rewrite all_addrs_cons. apply elem_of_list_lookup_2 in Hi. set_solver. }
    assert (E0 : cell_val h0 a = Some v). { rewrite <- Uc; [done|]. by eapply elem_of_list_lookup_2. }
    rewrite Nat.add_0_l. set (al := take i (col_addrs m d c)) in *.
    assert (Hal : forall b, b ∈ al -> b ∈ col_addrs m d c).
    { intros b Hb. by apply elem_of_take in Hb as (? & ?%elem_of_list_lookup_2 & _). }
    assert (Hdj : forall b, b ∈ all_addrs m d previous -> b ∉ al).
    { intros b Hb Hb'. eapply Hnd2; [exact Hb|]. apply elem_of_app. left. by apply Hal. }
    assert (M : mapped f (all_addrs m d previous ++ al) h0 h1) by (by eapply mapped_app).
    assert (Hal_nd : NoDup al). { pose proof Hnd4 as Hx. rewrite <- (take_drop i) in Hx. by apply NoDup_app in Hx as (? & _). }
    pose proof M as (W1 & U1 & A1).
    assert (S1 : forall b, b ∈ all_addrs m d previous ++ al -> exists v, cell_val h1 b = Some v /\ is_str v).
    { intros b Hb. destruct (A1 b Hb) as (u & u' & _ & Hu & Hu'). exists u'. split; [done|]. by eapply enc_fun_str. }
    unfold bind at 1. rewrite inplace_col by done. fold g. fold al.
    destruct (crun_strs (convert codecs new old) al 0 h1) as (r & h2 & E2 & W2 & S2); [done|set_solver|].
    fold g in E2. rewrite E2.
    change (forM previous _) with (revert_loop previous).
    destruct (revert_total previous h2) as (h3 & E3); [by etrans|done|done| |].
    { intros b Hb. destruct (S1 b) as (u & Hu & Hus); [set_solver|]. by eapply S2. }
    unfold bind at 1. rewrite E3. cbn [ret]. split; [by exists a, v|]. intros Hun.
    assert (G1 : forall b, b ∈ all_addrs m d previous ++ al -> exists u u', cell_val h1 b = Some u /\ g u = Ok (Some u')).
    { intros b Hb. destruct (A1 b Hb) as (u & u' & Hu & Hf & Hu'). exists u', u. split; [done|].
      eapply Hun; [|exact Hu|exact Hf]. rewrite all_addrs_app, all_addrs_cons. apply elem_of_app in Hb as [Hb|Hb]; [set_solver|].
      apply Hal in Hb. set_solver. }
    destruct (crun_total g al 0 h1 (enc_fun_kind _) Hal_nd) as (h2' & E2' & M2); [set_solver|].
    rewrite E2 in E2'. injection E2' as -> <-. pose proof M2 as (_ & U2 & _).
    destruct (revert_mapped previous h2) as (h3' & E3' & M3); [by etrans|done|done| |].
    { intros b Hb. rewrite U2 by auto. apply G1. set_solver. }
    rewrite E3 in E3'. injection E3' as <-.
    eapply (mapped_undo f g (all_addrs m d previous ++ al) (al ++ all_addrs m d previous) h0 h1 h3); [set_solver|exact M|eapply mapped_app; [|done|done]; set_solver|].
    intros b u u' Hb Hu Hf. eapply Hun; [|done|done]. rewrite all_addrs_app, all_addrs_cons.
    apply elem_of_app in Hb as [Hb|Hb]; [set_solver|]. apply Hal in Hb. set_solver.
  - specialize (H Hv). assert (M1 : mapped f (all_addrs m d (previous ++ [c])) h0 h1).
    { rewrite all_addrs_app. cbn [all_addrs]. eapply mapped_app; [|done|].
      - intros b Hb Hb'. unfold all_addrs in Hb'. simpl in Hb'. rewrite app_nil_r in Hb'. eapply Hnd2; [exact Hb|]. set_solver.
      - unfold all_addrs. simpl. by rewrite app_nil_r. }
    specialize (IH (previous ++ [c]) h1). rewrite <- app_assoc in IH. simpl in IH. specialize (IH Hnd').
    assert (Hp1 : Forall (fun c => is_Some (m !! (KObj, c)) \/ num_rows d = 0) (previous ++ [c])).
    { apply Forall_app. split; [done|]. by apply Forall_singleton. }
    specialize (IH Hp1 M1). destruct (encode_loop codecs old new d (previous ++ [c]) cols h1) as [[[|] h']|].
    + destruct IH as ((a & v & Ha & ? & ?) & Hun). split; [|done]. exists a, v. split; [|done]. rewrite all_addrs_cons. set_solver.
    + destruct IH as [? ?]. split; [done|]. by apply Forall_cons.
    + destruct IH as [(c' & ? & ? & ?)|(a & v & Ha & ? & ?)].
      * left. exists c'. set_solver.
      * right. exists a, v. split; [|done]. rewrite all_addrs_cons. set_solver.
  - destruct (H Hv) as (a & v & Ha & E & F). right. exists a, v. split; [rewrite all_addrs_cons; set_solver|].
    split; [|done]. by rewrite <- Uc.
Qed.
End fixed.
End frame.
