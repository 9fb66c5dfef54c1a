(** FromCSV. *)
From Verif Require Export P_Csv2 P_Csv.

Section frame.
Context {crt : CsvRT} {rt : GoRT}.

Section cols.
(** Type and values of the column of each name. *)
Context (K : string -> kind) (V : string -> list val).
Definition holds (ks : list string) (m : gmap key (list val)) : Prop :=
  forall k c vs, m !! (k, c) = Some vs <-> c ∈ ks /\ K c = k /\ V c = vs.
Definition marks (ks : list string) (xs : gset string) : Prop :=
  forall c, c ∈ xs <-> c ∈ ks /\ K c = KObj.

Lemma holds_nil : holds [] ∅.
Proof. intros k c vs. rewrite lookup_empty. split; [done|]. by intros (?%elem_of_nil & _). Qed.
Lemma marks_nil : marks [] ∅.
Proof. intros c. split; [set_solver|]. by intros (?%elem_of_nil & _). Qed.
Lemma holds_insert ks m c : holds ks m -> holds (ks ++ [c]) (<[(K c, c) := V c]> m).
Proof.
  intros H k c' vs. rewrite elem_of_app, elem_of_list_singleton. destruct (decide ((K c, c) = (k, c'))) as [E|E].
  - injection E as <- <-. rewrite lookup_insert. split; [intros [= ->]; auto|]. intros (_ & _ & ->). done.
  - rewrite lookup_insert_ne by done. rewrite (H k c' vs). split; [intros (? & ? & ?); auto|].
    intros ([?| ->] & <- & <-); [done|]. by destruct E.
Qed.
Lemma marks_insert ks xs c : marks ks xs ->
  marks (ks ++ [c]) (if decide (K c = KObj) then {[c]} ∪ xs else xs).
Proof.
  intros H c'. rewrite elem_of_app, elem_of_list_singleton. specialize (H c'). destruct (decide (K c = KObj)) as [E|E].
  - rewrite elem_of_union, elem_of_singleton, H. split; [intros [->|[? ?]]; auto|]. intros ([?| ->] & ?); auto.
  - rewrite H. split; [intros [? ?]; auto|]. intros ([?| ->] & ?); auto. done.
Qed.
Lemma holds_union ks ks' m m' : holds ks m -> holds ks' m' -> holds (ks ++ ks') (m' ∪ m).
Proof.
  intros H H' k c vs. rewrite lookup_union_Some_raw, elem_of_app. rewrite (H' k c vs), (H k c vs). split.
  - intros [(? & ? & ?)|(_ & ? & ? & ?)]; auto.
  - intros ([Hc|Hc] & E1 & E2); [|by left]. destruct (m' !! (k, c)) as [vs'|] eqn:E; [|by right].
    left. apply (H' k c vs') in E as (? & _). done.
Qed.
Lemma marks_union ks ks' xs xs' : marks ks xs -> marks ks' xs' -> marks (ks ++ ks') (xs ∪ xs').
Proof.
  intros H H' c. rewrite elem_of_union, elem_of_app, (H c), (H' c). split; [intros [[]|[]]; auto|]. intros [[?|?] ?]; auto.
Qed.
Lemma holds_perm ks ks' m : (forall c, c ∈ ks <-> c ∈ ks') -> holds ks m -> holds ks' m.
Proof. intros P H k c vs. rewrite (H k c vs), P. done. Qed.
Lemma marks_perm ks ks' xs : (forall c, c ∈ ks <-> c ∈ ks') -> marks ks xs -> marks ks' xs.
Proof. intros P H c. rewrite (H c), P. done. Qed.

Context (o : rspec) (header : list string) (recs : list (list string)).
Definition known (c : string) : Prop :=
  native_col o header recs c = Ok (K c, V c) /\ Forall (fun v => kind_of v = K c) (V c).

Lemma to_native_types_built h0 ks : forall h r b done, built h0 h r b -> Forall known ks ->
  holds done (bs_cols b) -> marks done (bs_strs b) ->
  exists r' h' b', to_native_types o header recs r ks h = Ok (r', h') /\ built h0 h' r' b' /\ r_cpu r' = r_cpu r /\
    holds (done ++ ks) (bs_cols b') /\ marks (done ++ ks) (bs_strs b').
Proof.
  induction ks as [|c ks IH]; intros h r b dn Bu F H1 H2.
  { exists r, h, b. rewrite app_nil_r. done. }
  apply Forall_cons in F as [[Fc Fk] F]. cbn [to_native_types]. rewrite Fc.
  rewrite (bind_eq _ _ h (K c, V c) h) by done. cbn [fst snd].
  destruct Bu as [X N C B S SN SS E SM].
  destruct (put_new_spec h0 (r_maps r) (K c, c) (V c) [] h (bs_cols b) B X N C Fk (Forall_nil_2 _)) as
      (h1 & E1 & X1 & C1 & B1 & M1 & M2 & M3).
  assert (E1' : lit_slice (V c) h = new_slice (V c) [] h).
  { unfold new_slice, lit_slice. by rewrite app_nil_r, Nat.add_0_r. }
  apply bind_ok in E1 as (s & hs & Es & E1). rewrite <- E1' in Es. rewrite (bind_eq _ _ _ _ _ Es), (bind_eq _ _ _ _ _ E1).
  assert (Bu1 : built h0 h1 r (BState (<[(K c, c) := V c]> (bs_cols b)) (bs_strs b) (bs_enc b))).
  { split; try done.
    - intros x Hx. rewrite M2. by apply S.
    - unfold ostr in *. destruct (r_strs r); [|done]. unfold str in *. by rewrite M2. }
  pose proof (marks_insert dn (bs_strs b) c H2) as H2'.
  pose proof (holds_insert dn (bs_cols b) c H1) as H1'.
  destruct (decide (K c = KObj)) as [Ek|Ek].
  - destruct (b_mark_spec h0 h1 r _ c Bu1) as (r2 & h2 & E2 & B2 & Hc). rewrite (bind_eq _ _ _ _ _ E2).
    destruct (IH h2 r2 _ (dn ++ [c]) B2 F H1' H2') as (r3 & h3 & b3 & E3 & B3 & C3 & Q3).
    exists r3, h3, b3. rewrite <- app_assoc in Q3. split; [done|]. split; [done|]. split; [congruence|done].
  - rewrite (bind_eq _ _ h1 r h1) by done.
    destruct (IH h1 r _ (dn ++ [c]) Bu1 F H1' H2') as (r3 & h3 & b3 & E3 & B3 & C3 & Q3).
    exists r3, h3, b3. rewrite <- app_assoc in Q3. done.
Qed.

(** A finished protoframe. *)
Definition proto (h : heap) (r : raw) (ks : list string) : Prop :=
  raw_ok h r /\ valid_str h (r_strs r) /\ holds ks (raw_cols h r) /\ marks ks (ostr h (r_strs r)).
Lemma proto_ext h h' r ks : ext h h' -> proto h r ks -> proto h' r ks.
Proof.
  intros X ([P1 P1'] & P2 & P3 & P4).
  assert (Em : mp h' (r_maps r) = mp h (r_maps r)) by (by apply (ext_mp _ _ _ X)).
  assert (Hc : forall k s, mp h (r_maps r) !! k = Some s -> col_ok h' k.1 s /\ sl_vals h' s = sl_vals h s).
  { intros k s Hs. specialize (P1' k s Hs). simpl in P1'. destruct (e_arr _ _ X) as [tl Ea]. apply (col_ok_arr_eq h).
    - done.
    - intros Hz. unfold arr. rewrite Ea. rewrite lookup_app_l; [done|]. destruct P1' as (? & Hl & _). unfold arr in Hl.
      destruct (decide (s_arr s < length (h_arr h))) as [|Hge]; [done|]. rewrite lookup_ge_None_2 in Hl by lia. simpl in Hl. lia.
    - intros Hz. unfold arr. rewrite Ea. destruct (decide (s_arr s < length (h_arr h))) as [Hlt|Hge]; [by rewrite lookup_app_l|].
      rewrite (lookup_ge_None_2 (h_arr h)) by lia. simpl. lia. }
  split; [split|split; [|split]].
  - pose proof (prefix_length _ _ (e_map _ _ X)). lia.
  - rewrite Em. intros k s Hs. by apply Hc.
  - intros x Hx. pose proof (prefix_length _ _ (e_str _ _ X)). specialize (P2 x Hx). lia.
  - assert (raw_cols h' r = raw_cols h r) as ->; [|done]. unfold raw_cols. rewrite Em. apply map_fmap_ext. intros k s Hs. by apply (Hc k).
  - assert (ostr h' (r_strs r) = ostr h (r_strs r)) as ->; [|done]. unfold ostr. destruct (r_strs r) as [x|] eqn:Ex; [|done].
    unfold str. destruct (e_str _ _ X) as [tl ->]. rewrite lookup_app_l; [done|]. by apply P2.
Qed.

Lemma protoframes_spec logs : forall h, Forall (Forall known) logs ->
  exists rs h', protoframes o header recs logs h = Ok (rs, h') /\ ext h h' /\ Forall2 (proto h') rs logs /\
    Forall (fun r => r_cpu r = max_cpu (-1)) rs.
Proof.
  induction logs as [|ks logs IH]; intros h F.
  { exists [], h. split; [done|]. split; [by apply ext_refl|]. by constructor. }
  apply Forall_cons in F as [Fk F]. cbn [protoframes].
  destruct (new_raw_built h) as (r0 & h0 & E0 & B0 & C0). rewrite (bind_eq _ _ _ _ _ E0).
  destruct (to_native_types_built h ks h0 r0 _ [] B0 Fk holds_nil marks_nil) as (r1 & h1 & b1 & E1 & B1 & C1 & H1 & M1).
  rewrite (bind_eq _ _ _ _ _ E1).
  destruct (IH h1 F) as (rs & h2 & E2 & X2 & P2 & C2). rewrite (bind_eq _ _ _ _ _ E2).
  exists (r1 :: rs), h2. split; [done|]. split; [by eapply ext_trans; [apply B1|]|]. split; [|constructor; [congruence|done]].
  constructor; [|done]. apply (proto_ext h1); [done|]. destruct (built_raw_ok _ _ _ _ B1) as [O1 O2].
  split; [done|]. split; [apply B1|]. rewrite O2, (bu_strs _ _ _ _ B1). done.
Qed.

Lemma merge_holds h rs logs : Forall2 (proto h) rs logs -> forall dn m xs,
  holds dn (sl_vals h <$> m) -> marks dn xs -> map_Forall (fun k s => col_ok h k.1 s) m ->
  holds (dn ++ concat logs) (sl_vals h <$> merge_maps h rs m) /\ marks (dn ++ concat logs) (merge_strs h rs xs) /\
  map_Forall (fun k s => col_ok h k.1 s) (merge_maps h rs m).
Proof.
  induction 1 as [|r ks rs logs P F IH]; intros dn m xs Hd Hm Hok.
  { simpl. rewrite app_nil_r. done. }
  destruct P as ((P1 & P1') & P2 & P3 & P4).
  destruct (IH (dn ++ ks) (mp h (r_maps r) ∪ m) (xs ∪ ostr h (r_strs r))) as (Q1 & Q2 & Q3).
  - rewrite map_fmap_union. by apply holds_union.
  - by apply marks_union.
  - intros k s [Hs|[_ Hs]]%lookup_union_Some_raw; [by apply (P1' k s)|by apply (Hok k s)].
  - cbn [concat]. rewrite app_assoc. done.
Qed.

Lemma from_csv_spec h logs : Forall (Forall known) logs ->
  exists r h', from_csv o header recs logs h = Ok (r, h') /\ ext h h' /\ raw_ok h' r /\ valid_str h' (r_strs r) /\
    holds (concat logs) (raw_cols h' r) /\ marks (concat logs) (ostr h' (r_strs r)) /\
    r_enc r = rs_enc o /\ r_cpu r = max_cpu (rs_cpu o).
Proof.
  intros F. unfold from_csv. destruct (protoframes_spec logs h F) as (rs & h1 & E1 & X1 & P1 & C1).
  rewrite (bind_eq _ _ _ _ _ E1).
  destruct (merge_raw_columns_mstate h1 rs) as (r & h2 & E2 & M2 & Q2).
  { clear -P1. induction P1 as [|r ks rs logs ((? & _) & ? & _) P IH]; constructor; done. }
  rewrite (bind_eq _ _ _ _ _ E2). eexists _, h2. split; [reflexivity|].
  destruct (merge_holds h1 rs logs P1 [] ∅ ∅) as (H1 & H2 & H3).
  { rewrite fmap_empty. apply holds_nil. } { apply marks_nil. } { apply map_Forall_empty. }
  simpl in H1, H2. destruct M2 as [X A Kk N L M S SN SS HH HS SM].
  assert (Ha : forall i, arr h2 i = arr h1 i) by (intros i; unfold arr; by rewrite A).
  cbn [set_max_cpu r_maps r_strs r_enc r_cpu].
  split; [by eapply ext_trans|]. split; [|split; [done|split; [|split; [|done]]]].
  - split; [done|]. cbn [set_max_cpu r_maps]. rewrite M. intros k s Hs. specialize (H3 k s Hs). simpl in *. unfold col_ok in *. by rewrite Ha.
  - unfold raw_cols. cbn [set_max_cpu r_maps]. rewrite M. assert (sl_vals h2 <$> merge_maps h1 rs ∅ = sl_vals h1 <$> merge_maps h1 rs ∅) as ->; [|done].
    apply map_fmap_ext. intros k s _. unfold sl_vals. by rewrite Ha.
  - by rewrite SS.
Qed.
End cols.

(** A column can be parsed if and only if every record has a cell for it. *)
Lemma conv_rows_ok_inv f recs col l : conv_rows f recs col = Ok l -> Forall (fun r : list string => is_Some (r !! col)) recs.
Proof.
  revert l. induction recs as [|r recs IH]; intros l; [constructor|]. simpl. unfold rcell.
  destruct (r !! col) as [s|] eqn:E; [|done]. simpl. destruct (conv_rows f recs col) as [l'|] eqn:E'; [|done]. intros _.
  constructor; [by eexists|]. by eapply IH.
Qed.
Lemma mark_missing_ok_inv ms recs col l : mark_missing ms recs col = Ok l -> Forall (fun r : list string => is_Some (r !! col)) recs.
Proof.
  revert l. induction recs as [|r recs IH]; intros l; [constructor|]. simpl. unfold rcell.
  destruct (r !! col) as [s|] eqn:E; [|done]. simpl. destruct (mark_missing ms recs col) as [l'|] eqn:E'; [|done]. intros _.
  constructor; [by eexists|]. by eapply IH.
Qed.
Lemma conv_rows_but_ok_inv f dflt recs col l : conv_rows_but f dflt recs (replicate (length recs) false) col = Ok l ->
  Forall (fun r : list string => is_Some (r !! col)) recs.
Proof.
  revert l. induction recs as [|r recs IH]; intros l; [constructor|]. simpl. unfold rcell.
  destruct (r !! col) as [s|] eqn:E; [|done]. simpl. destruct (conv_rows_but f dflt recs _ col) as [l'|] eqn:E'; [|done]. intros _.
  constructor; [by eexists|]. by eapply IH.
Qed.
Lemma native_ok_inv o recs col p : native o recs col = Ok p -> Forall (fun r : list string => is_Some (r !! col)) recs.
Proof.
  unfold native. destruct (if rs_binary_float o then _ else _) as [b1|]; [|done]. cbn [res_bind]. destruct b1.
  { unfold to_bool. destruct (conv_rows _ recs col) eqn:E; [|done]. intros _. by eapply conv_rows_ok_inv. }
  destruct (if rs_bool_float o || _ then _ else _) as [b2|]; [|done]. cbn [res_bind]. destruct b2.
  { unfold to_bool. destruct (conv_rows _ recs col) eqn:E; [|done]. intros _. by eapply conv_rows_ok_inv. }
  destruct (decide (rs_missing o = [])) as [E0|E0].
  - cbn [res_bind]. destruct (if rs_int_float o then _ else _) as [b3|]; [|done]. cbn [res_bind]. destruct b3.
    { unfold to_int. destruct (conv_rows_but _ _ recs _ col) eqn:E; [|done]. intros _. by eapply conv_rows_but_ok_inv. }
    destruct (is_float recs col _) as [b4|]; [|done]. cbn [res_bind]. destruct b4.
    { unfold csv_to_float. destruct (conv_rows_but _ _ recs _ col) eqn:E; [|done]. intros _. by eapply conv_rows_but_ok_inv. }
    destruct (conv_rows_but _ _ recs _ col) eqn:E; [|done]. intros _. by eapply conv_rows_but_ok_inv.
  - destruct (mark_missing (rs_missing o) recs col) eqn:E; [|done]. intros _. by eapply mark_missing_ok_inv.
Qed.
Lemma cells_total col recs : Forall (fun r : list string => is_Some (r !! col)) recs ->
  exists l, Forall2 (fun (r : list string) s => r !! col = Some s) recs l.
Proof.
  induction 1 as [|r recs [s Hs] F [l IH]]; [by exists []|]. exists (s :: l). by constructor.
Qed.
Lemma native_panic o recs col : native o recs col = Panic <-> ~ Forall (fun r : list string => is_Some (r !! col)) recs.
Proof.
  split.
  - intros E F. destruct (cells_total col recs F) as [l Hl]. by rewrite (native_cells o recs col l Hl) in E.
  - intros F. destruct (native o recs col) as [p|] eqn:E; [|done]. by apply native_ok_inv in E.
Qed.
Lemma pure_vals_typed ms k l : Forall (fun v => kind_of v = k) (pure_vals ms k l).
Proof. destruct k; apply Forall_fmap, Forall_forall; intros s _; simpl; by try case_bool_decide. Qed.
Lemma pure_vals_length ms k l : length (pure_vals ms k l) = length l.
Proof. destruct k; by apply fmap_length. Qed.
End frame.
