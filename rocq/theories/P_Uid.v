(** C100: the text of a data UID. *)
From Coq Require Import NArith Ascii Lia Sorted.
From Verif Require Import M_Uid.
From stdpp Require Import strings list.
From Verif Require Import Spec_Uid.

Lemma sapp_cons c (s t : string) : String c s +:+ t = String c (s +:+ t).
Proof. done. Qed.
Lemma sapp_assoc (a b c : string) : a +:+ (b +:+ c) = (a +:+ b) +:+ c.
Proof. induction a as [|x a IH]; [done|]. rewrite !sapp_cons. by f_equal. Qed.
Lemma sapp_nil (a : string) : a +:+ "" = a.
Proof. induction a as [|x a IH]; [done|]. rewrite !sapp_cons. by f_equal. Qed.
Lemma digit36_ok d : (d < 36)%N -> exists c, digit36 d = String c "" /\ val36 c = Some d /\ (c = "0"%char -> d = 0%N).
Proof.
  intros H.
  set (chk := fun d : nat => match digit36 (N.of_nat d) with
    | String c "" => bool_decide (val36 c = Some (N.of_nat d)) && (negb (bool_decide (c = "0"%char)) || (d =? 0))
    | _ => false end).
  assert (A : forallb chk (seq 0 36) = true) by (by vm_compute).
  rewrite forallb_forall in A. specialize (A (N.to_nat d)). unfold chk in A.
  rewrite N2Nat.id in A.
  assert (B : In (N.to_nat d) (seq 0 36)) by (apply in_seq; lia). specialize (A B).
  destruct (digit36 d) as [|c [|]]; [done| |done]. exists c. split; [done|].
  apply andb_true_iff in A as [A1 A2]. apply bool_decide_eq_true in A1. split; [done|].
  intros ->. rewrite bool_decide_eq_true_2 in A2 by done. simpl in A2. apply Nat.eqb_eq in A2. lia.
Qed.

Lemma read36_app s t : forall a, read36 a (s +:+ t) = match read36 a s with Some b => read36 b t | None => None end.
Proof. induction s as [|c s IH]; intros a; [done|]. rewrite sapp_cons. simpl. destruct (val36 c); [apply IH|done]. Qed.

Lemma format36_loop_ok fuel : forall n acc, (n < 2 ^ N.of_nat fuel)%N -> 0 < fuel ->
  exists t, format36_loop fuel n acc = t +:+ acc /\ numeral36 n t.
Proof.
  induction fuel as [|f IH]; intros n acc Hn Hf; [lia|]. simpl.
  destruct (digit36_ok (n mod 36)) as (c & Hc & Hv & H0); [by apply N.mod_lt|].
  pose proof (N.div_mod n 36 ltac:(done)) as Hdm.
  destruct (N.eqb_spec (n / 36) 0) as [E|E].
  - exists (digit36 (n mod 36)). split; [done|]. rewrite Hc. split; [done|]. simpl. rewrite Hv. simpl.
    split; [f_equal; lia|]. intros r [= -> <-]. done.
  - assert (Hlt : (n / 36 < 2 ^ N.of_nat f)%N).
    { apply N.div_lt_upper_bound; [done|]. rewrite Nat2N.inj_succ, N.pow_succ_r' in Hn. lia. }
    assert (Hf' : 0 < f). { destruct f; [|lia]. change (2 ^ N.of_nat 0)%N with 1%N in Hlt. apply N.lt_1_r in Hlt. done. }
    destruct (IH (n / 36)%N (digit36 (n mod 36) +:+ acc) Hlt Hf') as (t & -> & Ht & Hr & Hz).
    exists (t +:+ digit36 (n mod 36)). split. { by rewrite sapp_assoc. }
    rewrite Hc. split; [by destruct t|]. split.
    + rewrite read36_app, Hr. simpl. rewrite Hv. f_equal. lia.
    + intros r Hr'. destruct t as [|c' t']; [done|]. rewrite sapp_cons in Hr'. injection Hr' as -> <-.
      specialize (Hz t' eq_refl). subst t'. simpl in Hr. injection Hr as Hr. lia.
Qed.
Lemma size_bound n : (n < 2 ^ N.of_nat (N.size_nat n))%N.
Proof.
  destruct n as [|p]; [done|]. simpl.
  assert (H : (Npos p < 2 ^ N.of_nat (Pos.size_nat p))%N).
  { induction p as [p IH|p IH|]; [| |done];
    change (Pos.size_nat _) with (S (Pos.size_nat p)); rewrite Nat2N.inj_succ, N.pow_succ_r'; lia. }
  exact H.
Qed.
Lemma format36_ok n : numeral36 n (format36 n).
Proof.
  destruct (format36_loop_ok (S (N.size_nat n)) n "") as (t & E & H); [|lia|].
  { rewrite Nat2N.inj_succ, N.pow_succ_r'. pose proof (size_bound n). lia. }
  unfold format36. rewrite E. by rewrite sapp_nil.
Qed.

(** ** The loop over the bits *)
Lemma uid_loop_ok fuel : forall i v, (v < 2 ^ N.of_nat fuel)%N ->
  exists bits, StronglySorted N.lt bits /\ (forall b, b ∈ bits <-> (i <= b)%N /\ N.testbit v (b - i) = true) /\
    uid_loop fuel i v +:+ "|" = barred (format36 <$> bits).
Proof.
  induction fuel as [|f IH]; intros i v Hv.
  { change (2 ^ N.of_nat 0)%N with 1%N in Hv. apply N.lt_1_r in Hv as ->. exists []. split; [constructor|].
    split; [|done]. intros b. rewrite N.bits_0. set_solver. }
  cbn [uid_loop]. destruct (N.eqb_spec v 0) as [-> | Hv0].
  { exists []. split; [constructor|]. split; [|done]. intros b. rewrite N.bits_0. set_solver. }
  assert (Hlt : (v / 2 < 2 ^ N.of_nat f)%N).
  { apply N.div_lt_upper_bound; [done|]. by rewrite Nat2N.inj_succ, N.pow_succ_r' in Hv. }
  destruct (IH (i + 1)%N (v / 2)%N Hlt) as (bits & Hs & Hb & Ht).
  assert (Hshift : forall b, (i + 1 <= b)%N -> N.testbit (v / 2) (b - (i + 1)) = N.testbit v (b - i)).
  { intros b Hle. rewrite <- N.div2_div, N.div2_spec, N.shiftr_spec'. f_equal. lia. }
  assert (H0 : N.testbit v 0 = (v mod 2 =? 1)%N).
  { rewrite N.bit0_mod || idtac. rewrite <- (N.bit0_mod v). by destruct (N.testbit v 0). }
  destruct (v mod 2 =? 1)%N eqn:E.
  - exists (i :: bits). split.
    { constructor; [done|]. rewrite Forall_forall. intros b Hin. apply Hb in Hin as [? _]. lia. }
    split.
    + intros b. rewrite elem_of_cons, Hb. split.
      * intros [-> | [Hle Hbit]]; [rewrite N.sub_diag; split; [lia|done]|]. rewrite Hshift in Hbit by done. split; [lia|done].
      * intros [Hle Hbit]. destruct (N.eq_dec b i) as [-> | ?]; [by left|]. right. split; [lia|]. rewrite Hshift by lia. done.
    + rewrite fmap_cons. cbn [barred foldr]. fold (barred (format36 <$> bits)). rewrite <- Ht.
      rewrite sapp_cons. change ("|" +:+ format36 i) with (String "|" (format36 i)). by rewrite !sapp_cons, <- !sapp_assoc.
  - exists bits. split; [done|]. split; [|exact Ht]. intros b. rewrite Hb. split.
    + intros [Hle Hbit]. rewrite Hshift in Hbit by done. split; [lia|done].
    + intros [Hle Hbit]. destruct (N.eq_dec b i) as [-> | ?]; [rewrite N.sub_diag in Hbit; congruence|].
      split; [lia|]. rewrite Hshift by lia. done.
Qed.

Lemma uid_printed v : exists bits ts, StronglySorted N.lt bits /\
  (forall b, b ∈ bits <-> N.testbit v b = true) /\ Forall2 numeral36 bits ts /\ printable_uid v = barred ts.
Proof.
  destruct (uid_loop_ok (S (N.size_nat v)) 0 v) as (bits & Hs & Hb & Ht).
  { rewrite Nat2N.inj_succ, N.pow_succ_r'. pose proof (size_bound v). lia. }
  exists bits, (format36 <$> bits). split; [done|]. split.
  { intros b. rewrite Hb, N.sub_0_r. split; [tauto|]. split; [lia|done]. }
  split; [|exact Ht]. apply Forall2_fmap_r. apply Forall_Forall2_diag. apply Forall_forall. intros b _. apply format36_ok.
Qed.

(** ** The text determines the number *)
Fixpoint no_bar (s : string) : Prop := match s with "" => True | String c s => c <> "|"%char /\ no_bar s end.
Lemma read36_no_bar t : forall a i, read36 a t = Some i -> no_bar t.
Proof.
  induction t as [|c t IH]; intros a i H; [done|]. simpl in H. destruct (val36 c) eqn:E; [|done].
  split; [|by eapply IH]. intros ->. by vm_compute in E.
Qed.
Lemma bar_split s t : no_bar s -> no_bar t -> forall s' t', s +:+ String "|" s' = t +:+ String "|" t' -> s = t /\ s' = t'.
Proof.
  revert t. induction s as [|c s IH]; intros [|c' t] Hs Ht s' t' E; rewrite ?sapp_cons in E.
  - by injection E.
  - injection E as <- _. destruct Ht as [Ht _]. done.
  - injection E as -> _. destruct Hs as [Hs _]. done.
  - injection E as -> E. destruct Hs as [_ Hs], Ht as [_ Ht]. by destruct (IH t Hs Ht s' t' E) as [-> ->].
Qed.
Lemma barred_head ts : exists r, barred ts = String "|" r.
Proof. destruct ts; simpl; eauto. Qed.
Lemma barred_inj ts : forall us, Forall no_bar ts -> Forall no_bar us -> Forall (fun t => t <> "") ts -> Forall (fun t => t <> "") us ->
  barred ts = barred us -> ts = us.
Proof.
  assert (N0 : forall t l, t <> "" -> barred [] <> barred (t :: l)).
  { intros t l Ht E. cbn [barred foldr] in E. injection E as E. destruct t; [done|]. rewrite sapp_cons in E. done. }
  induction ts as [|t ts IH]; intros [|u us] Ht Hu Et Eu E; [done| | |].
  - apply Forall_cons in Eu as [Eu _]. by destruct (N0 u us Eu).
  - apply Forall_cons in Et as [Et _]. by destruct (N0 t ts Et).
  - apply Forall_cons in Ht as [Ht1 Ht2], Hu as [Hu1 Hu2], Et as [Et1 Et2], Eu as [Eu1 Eu2].
    cbn [barred foldr] in E. fold (barred ts) in E. fold (barred us) in E. injection E as E.
    destruct (barred_head ts) as [r Hr], (barred_head us) as [r' Hr'].
    rewrite Hr, Hr' in E. apply bar_split in E as [-> E]; [|done|done].
    f_equal. apply IH; try done. by rewrite Hr, Hr', E.
Qed.
Lemma uid_unique v w : printable_uid v = printable_uid w -> v = w.
Proof.
  destruct (uid_printed v) as (bv & tv & _ & Hv & Nv & ->), (uid_printed w) as (bw & tw & _ & Hw & Nw & ->).
  assert (Hn : forall bits ts, Forall2 numeral36 bits ts -> Forall no_bar ts /\ Forall (fun t => t <> "") ts).
  { intros bits ts H. induction H as [|b t bits ts [Hne [Hr _]] _ [IH1 IH2]]; [done|].
    split; constructor; try done. by eapply read36_no_bar. }
  intros E. apply barred_inj in E as <-; try (by eapply Hn).
  assert (bv = bw) as <-.
  { clear Hv Hw. revert bw Nw. induction Nv as [|b t bits ts [_ [Hr _]] _ IH]; intros bw Nw.
    - by inversion Nw.
    - inversion Nw as [|b' ? bw' ? [_ [Hr' _]] Hrest]; subst. f_equal; [congruence|by apply IH]. }
  apply N.bits_inj. intros b. destruct (N.testbit v b) eqn:Ev, (N.testbit w b) eqn:Ew; try done.
  - apply Hv in Ev. apply Hw in Ev. congruence.
  - apply Hw in Ew. apply Hv in Ew. congruence.
Qed.
Lemma uid_generated r : exists b, (b < 64)%N /\ forall i, N.testbit (gen_uid r) i = true <-> i = b.
Proof.
  exists (r mod 64)%N. split; [by apply N.mod_lt|]. intros i. unfold gen_uid.
  rewrite N.shiftl_1_l, N.pow2_bits_eqb. rewrite N.eqb_eq. split; congruence.
Qed.
