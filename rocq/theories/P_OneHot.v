(** One-hot encoding: names and fitting. *)
From Verif Require Export Spec_OneHot.
From Coq Require Import Ascii.
From Verif Require Export P_PrepPool.

Lemma oh_fix_fixed opt : fixed (oh_fix opt).
Proof. destruct opt as [[] [] k]; vm_compute; done. Qed.
Lemma oh_fix_id opt : fixed opt -> oh_fix opt = opt.
Proof. destruct opt as [[] [] k]; intros [H1 H2]; done. Qed.

(** ** Names *)
Definition is_digit (a : ascii) : bool := (48 <=? nat_of_ascii a) && (nat_of_ascii a <=? 57).
Definition chars (s : string) : list ascii := list_ascii_of_string s.
Lemma chars_app s1 s2 : chars (s1 +:+ s2) = chars s1 ++ chars s2.
Proof. induction s1 as [|a s1 IH]; [done|]. exact (f_equal (cons a) IH). Qed.
Lemma chars_inj s1 s2 : chars s1 = chars s2 -> s1 = s2.
Proof. intros H. rewrite <- (string_of_list_ascii_of_string s1), <- (string_of_list_ascii_of_string s2). unfold chars in H. by rewrite H. Qed.
Lemma digits_split l1 : forall l2 a b x y, Forall (fun c => is_digit c = true) l1 -> Forall (fun c => is_digit c = true) l2 ->
  is_digit a = false -> is_digit b = false -> l1 ++ a :: x = l2 ++ b :: y -> l1 = l2 /\ a = b /\ x = y.
Proof.
  induction l1 as [|c l1 IH]; intros [|c2 l2] a b x y H1 H2 Ha Hb E; simpl in E.
  - by injection E as -> ->.
  - injection E as E1 E2. apply Forall_cons in H2 as [H2 _]. congruence.
  - injection E as E1 E2. apply Forall_cons in H1 as [H1 _]. congruence.
  - injection E as -> E. apply Forall_cons in H1 as [_ H1]. apply Forall_cons in H2 as [_ H2].
    destruct (IH _ _ _ _ _ H1 H2 Ha Hb E) as (-> & -> & ->). done.
Qed.
Lemma pretty_go_digits x : forall s, Forall (fun c => is_digit c = true) (chars s) -> Forall (fun c => is_digit c = true) (chars (pretty_N_go x s)).
Proof.
  induction x as [x IH] using (well_founded_induction N.lt_wf_0). intros s H.
  destruct (decide (0 < x)%N) as [Hx|Hx].
  - rewrite pretty_N_go_step by done. apply IH; [by apply N.div_lt|]. unfold chars in *. simpl. constructor; [|done].
    assert (x `mod` 10 < 10)%N as Hm by (by apply N.mod_lt). revert Hm. generalize (x `mod` 10)%N. intros y Hy.
    unfold pretty_N_char. destruct y as [|p]; [done|]. repeat (destruct p as [p|p|]; try done; try lia).
  - assert (x = 0%N) as -> by lia. by rewrite pretty_N_go_0.
Qed.
Lemma pretty_digits (i : nat) : Forall (fun c => is_digit c = true) (chars (pretty i)) /\ chars (pretty i) <> [].
Proof.
  unfold pretty, pretty_nat, pretty, pretty_N. destruct (decide (N.of_nat i = 0%N)) as [E|E].
  - split; [by repeat constructor|done].
  - split; [apply pretty_go_digits; constructor|]. rewrite pretty_N_go_step by lia.
    assert (G : forall x s, chars (pretty_N_go x s) <> [] \/ s = "").
    { intros x. induction x as [x IH] using (well_founded_induction N.lt_wf_0). intros s. destruct (decide (0 < x)%N).
      - rewrite pretty_N_go_step by done. destruct (IH (x `div` 10)%N ltac:(by apply N.div_lt) (String (pretty_N_char (x `mod` 10)) s)); [by left|done].
      - assert (x = 0%N) as -> by lia. rewrite pretty_N_go_0. destruct s; [by right|by left]. }
    destruct (G (N.of_nat i `div` 10)%N (String (pretty_N_char (N.of_nat i `mod` 10)) "")); done.
Qed.

Lemma onehot_chars c i : exists l, rev (chars (onehot_name c i)) = rev (chars (pretty i)) ++ "t"%char :: l /\ l = rev (chars "_oneho") ++ rev (chars c).
Proof.
  eexists. split; [|done]. unfold onehot_name. rewrite !chars_app, !rev_app_distr. rewrite <- app_assoc. f_equal.
Qed.
Lemma Forall_rev' {A} (P : A -> Prop) l : Forall P l -> Forall P (rev l).
Proof. rewrite !Forall_forall. intros H x Hx. apply H. rewrite elem_of_list_In in *. by apply in_rev. Qed.
Lemma onehot_name_inj c1 c2 i1 i2 : onehot_name c1 i1 = onehot_name c2 i2 -> c1 = c2 /\ i1 = i2.
Proof.
  intros E. destruct (onehot_chars c1 i1) as (l1 & E1 & ->). destruct (onehot_chars c2 i2) as (l2 & E2 & ->). rewrite E in E1. rewrite E1 in E2.
  apply digits_split in E2 as (D & _ & T); [|apply Forall_rev', pretty_digits|apply Forall_rev', pretty_digits|done|done].
  apply (f_equal (@rev _)) in D. rewrite !rev_involutive in D. apply chars_inj in D. split; [|symmetry; by apply (inj pretty)].
  apply app_inv_head in T. apply (f_equal (@rev _)) in T. rewrite !rev_involutive in T. symmetry. by apply chars_inj.
Qed.
Lemma app_str_inj c1 c2 s : c1 +:+ s = c2 +:+ s -> c1 = c2.
Proof. intros E. apply (f_equal chars) in E. rewrite !chars_app in E. apply app_inv_tail in E. by apply chars_inj. Qed.
Lemma missing_name_inj c1 c2 : missing_name c1 = missing_name c2 -> c1 = c2.
Proof. apply app_str_inj. Qed.
Lemma unk_name_inj c1 c2 : unk_name c1 = unk_name c2 -> c1 = c2.
Proof. apply app_str_inj. Qed.
(** The last character tells the three kinds of names apart. *)
Lemma last_onehot c i : exists a, last (chars (onehot_name c i)) = Some a /\ is_digit a = true.
Proof.
  destruct (pretty_digits i) as [H1 H2]. unfold onehot_name. rewrite !chars_app, app_assoc. destruct (exists_last H2) as (l & a & E). rewrite E in *.
  exists a. rewrite app_assoc, last_snoc. split; [done|]. apply Forall_app in H1 as [_ H1]. by inversion H1.
Qed.
Lemma last_missing c : last (chars (missing_name c)) = Some "g"%char.
Proof. unfold missing_name. rewrite chars_app. change (chars "_missing") with (chars "_missin" ++ ["g"%char]). by rewrite app_assoc, last_snoc. Qed.
Lemma last_unk c : last (chars (unk_name c)) = Some "k"%char.
Proof. unfold unk_name. rewrite chars_app. change (chars "_unk") with (chars "_un" ++ ["k"%char]). by rewrite app_assoc, last_snoc. Qed.
Lemma onehot_missing c1 i c2 : onehot_name c1 i <> missing_name c2.
Proof. intros E. destruct (last_onehot c1 i) as (a & H1 & H2). rewrite E, last_missing in H1. by injection H1 as <-. Qed.
Lemma onehot_unk c1 i c2 : onehot_name c1 i <> unk_name c2.
Proof. intros E. destruct (last_onehot c1 i) as (a & H1 & H2). rewrite E, last_unk in H1. by injection H1 as <-. Qed.
Lemma missing_unk c1 c2 : missing_name c1 <> unk_name c2.
Proof. intros E. pose proof (last_missing c1) as H. rewrite E, last_unk in H. done. Qed.
Lemma name_ne c i : onehot_name c i <> "" /\ missing_name c <> "" /\ unk_name c <> "".
Proof. unfold onehot_name, missing_name, unk_name. destruct c; by split_and!. Qed.

(** ** Counting *)
Lemma count_cats_spec vs z : count_cats vs !! z = if decide (z ∈ vs) then Some (Z.of_nat (freq z vs)) else None.
Proof.
  unfold count_cats. induction vs as [|v vs IH] using rev_ind; [done|]. rewrite foldl_app. cbn [foldl].
  set (m := foldl _ ∅ vs) in *. unfold freq in *. rewrite filter_app, app_length.
  destruct (decide (v = z)) as [->|Hne].
  - rewrite lookup_insert, decide_True by (apply elem_of_app; right; by apply elem_of_list_singleton). f_equal.
    rewrite filter_cons_True by done. rewrite filter_nil. simpl length. rewrite IH. destruct (decide (z ∈ vs)) as [Hz|Hz]; simpl; [lia|].
    rewrite (filter_none (fun v => v = z) vs); [simpl; lia|]. apply Forall_forall. by intros x Hx ->.
  - rewrite lookup_insert_ne by done. rewrite filter_cons_False by done. rewrite filter_nil. simpl length. rewrite Nat.add_0_r, IH.
    destruct (decide (z ∈ vs)) as [Hz|Hz].
    + by rewrite decide_True by (apply elem_of_app; by left).
    + rewrite decide_False; [done|]. intros [|Hx%elem_of_list_singleton]%elem_of_app; [done|congruence].
Qed.
Lemma freq_pos z vs : z ∈ vs -> 1 <= freq z vs.
Proof.
  intros Hz. unfold freq. assert (Hx : z ∈ filter (fun v => v = z) vs) by (by apply elem_of_list_filter). destruct (filter _ vs); [by apply elem_of_nil in Hx|simpl; lia].
Qed.
Lemma most_common_spec (freqs : gmap Z Z) cats : (forall z, z ∈ cats -> exists n, freqs !! z = Some n /\ (0 <= n)%Z) -> cats <> [] ->
  exists z n, most_common freqs cats = z /\ z ∈ cats /\ freqs !! z = Some n /\ forall z' n', z' ∈ cats -> freqs !! z' = Some n' -> (n' <= n)%Z.
Proof.
  intros H Hne. unfold most_common.
  assert (G : forall l, (forall z, z ∈ l -> z ∈ cats) -> exists p, foldl (fun p v => let f := default 0%Z (freqs !! v) in if decide (p.1 < f)%Z then (f, v) else p) ((-1)%Z, 0%Z) l = p /\
     (l = [] /\ p = ((-1)%Z, 0%Z) \/ p.2 ∈ l /\ freqs !! p.2 = Some p.1 /\ forall z' n', z' ∈ l -> freqs !! z' = Some n' -> (n' <= p.1)%Z)).
  { induction l as [|v l IH] using rev_ind; intros Hl; [eexists; split; [done|by left]|].
    destruct IH as (p & Ep & IH); [intros z Hz; apply Hl, elem_of_app; by left|]. rewrite foldl_app. rewrite Ep. cbn [foldl]. cbv zeta.
    destruct (H v) as (n & Hn & Hp); [apply Hl, elem_of_app; right; by apply elem_of_list_singleton|]. rewrite Hn. simpl default.
    eexists. split; [reflexivity|]. right. destruct IH as [[-> ->]|(I1 & I2 & I3)].
    - rewrite decide_True by (simpl; lia). simpl. split; [by apply elem_of_list_singleton|]. split; [done|].
      intros z' n' ->%elem_of_list_singleton Hn'. rewrite Hn in Hn'. injection Hn' as <-. done.
    - destruct (decide (p.1 < n)%Z) as [Hlt|Hge]; simpl.
      + split; [apply elem_of_app; right; by apply elem_of_list_singleton|]. split; [done|].
        intros z' n' [Hz| ->%elem_of_list_singleton]%elem_of_app Hn'; [specialize (I3 z' n' Hz Hn'); lia|]. rewrite Hn in Hn'. injection Hn' as <-. done.
      + split; [apply elem_of_app; by left|]. split; [done|].
        intros z' n' [Hz| ->%elem_of_list_singleton]%elem_of_app Hn'; [by apply (I3 z' n')|]. rewrite Hn in Hn'. injection Hn' as <-. lia. }
  destruct (G cats) as (p & Ep & [[-> _]|(I1 & I2 & I3)]); [done|done|]. exists p.2, p.1. split; [exact (f_equal snd Ep)|done].
Qed.
Lemma imap_fst {A B} (f : nat -> A -> B) (l : list A) : forall k, (imap (fun i v => (v, f (k + i) v)) l).*1 = l.
Proof. induction l as [|a l IH]; intros k; [done|]. rewrite imap_cons, fmap_cons. f_equal. rewrite <- (IH (S k)) at 2. f_equal. apply imap_ext. intros i x _. simpl. do 2 f_equal. lia. Qed.
Lemma name_cats_spec col cats z n : NoDup cats -> name_cats col cats !! z = Some n <-> exists i, cats !! i = Some z /\ n = onehot_name col i.
Proof.
  intros Hnd. unfold name_cats. rewrite <- elem_of_list_to_map by exact (eq_ind_r (fun l => NoDup l) Hnd (imap_fst (fun i _ => onehot_name col i) cats 0)).
  split.
  - intros (i & Hi)%elem_of_list_lookup. rewrite list_lookup_imap in Hi. destruct (cats !! i) as [v|] eqn:E; [|done]. simpl in Hi. injection Hi as <- <-. by exists i.
  - intros (i & Hi & ->). apply elem_of_list_lookup. exists i. rewrite list_lookup_imap, Hi. done.
Qed.
