(** C91: underscores in numbers. *)
From Verif Require Import M_Strconv.
From Verif Require Import P_Exec.
From stdpp Require Import strings pretty list.
From Verif Require Import Spec_Strconv P_Strconv2 Spec_Under.
From Coq Require Import Strings.Ascii.

Local Notation us := ("_"%char) (only parsing).
Lemma app_inv_end a b x y : a +:+ String x "" = b +:+ String y "" -> a = b /\ x = y.
Proof.
  revert b. induction a as [|c a IH]; intros [|d b]; rewrite ?app_cons, ?app_nil; intros E.
  - by injection E.
  - injection E as _ E. by destruct b.
  - injection E as _ E. by destruct a.
  - injection E as -> E. apply IH in E as [-> ->]. done.
Qed.
Definition ends_digit (a : string) : Prop := exists a' x, a = a' +:+ String x "" /\ a_digit x.
Definition starts_digit (b : string) : Prop := exists y b', b = String y b' /\ a_digit y.
Definition sep (saw : last_seen) (s : string) : Prop :=
  (saw = SawUnder -> starts_digit s) /\
  forall a b, s = a +:+ String us b -> (a = "" -> saw = SawDigit) /\ (a <> "" -> ends_digit a) /\ starts_digit b.
Lemma ends_cons c a : ends_digit (String c a) <-> (a = "" /\ a_digit c) \/ (a <> "" /\ ends_digit a).
Proof.
  split.
  - intros ([|x a'] & y & E & Hy).
    + rewrite app_nil in E. injection E as -> ->. auto.
    + rewrite app_cons in E. injection E as -> ->. right. split; [by destruct a'|]. by exists a', y.
  - intros [[-> H]|[_ (a' & x & -> & H)]]; [by exists "", c|]. by exists (String c a'), x.
Qed.
Definition class (c : ascii) : last_seen :=
  match digit c with Some _ => SawDigit | None => if decide (c = us) then SawUnder else SawOther end.
Lemma digit_a c : is_Some (digit c) <-> a_digit c.
Proof.
  split; [intros [d Hd]; by apply digit_some in Hd as [? _]|]. intros H. rewrite (digit_of c H). by eexists.
Qed.
Lemma sep_cons saw c r : sep saw (String c r) <->
  (saw = SawUnder -> a_digit c) /\ (c = us -> saw = SawDigit) /\ sep (class c) r.
Proof.
  assert (Hcl : class c = SawDigit <-> a_digit c).
  { rewrite <- digit_a. unfold class. destruct (digit c); [split; [by eexists|done]|]. destruct (decide _); (split; [done|intros [? ?]; done]). }
  assert (Hcu : class c = SawUnder <-> c = us).
  { unfold class. destruct (digit c) eqn:E; [split; [done|intros ->; done]|]. by destruct (decide _). }
  split.
  - intros [H1 H2]. split; [intros E; destruct (H1 E) as (? & ? & [= <- <-] & ?); done|]. split.
    { intros ->. destruct (H2 "" r) as (X & _); [done|]. by apply X. }
    split.
    + intros E%Hcu. subst c. destruct (H2 "" r) as (_ & _ & X); done.
    + intros a b ->. destruct (H2 (String c a) b) as (_ & H & Hb); [done|]. specialize (H ltac:(done)).
      apply ends_cons in H. split; [|split; [|done]].
      * intros ->. destruct H as [[_ H]|[H _]]; [by apply Hcl|done].
      * intros Ha. destruct H as [[H _]|[_ H]]; done.
  - intros (H1 & H2 & H3 & H4). split; [intros E; eexists _, _; split; [done|]; auto|].
    intros [|x a] b E.
    + rewrite app_nil in E. injection E as -> ->. split; [by intros _; apply H2|]. split; [done|]. by apply H3, Hcu.
    + rewrite app_cons in E. injection E as -> E. destruct (H4 a b E) as (X1 & X2 & X3). split; [done|]. split; [|done].
      intros _. apply ends_cons. destruct a as [|z a]; [left|right]; [split; [done|]; by apply Hcl, X1|]. split; [done|]. by apply X2.
Qed.
Lemma under_run_sep s : forall saw, under_run false saw s = true <-> sep saw s.
Proof.
  induction s as [|c r IH]; intros saw.
  - cbn [under_run]. split.
    + intros H. split; [by intros ->|]. intros [|? ?] b E; done.
    + intros [H _]. destruct saw; try done. destruct H as (? & ? & ? & _); done.
  - cbn [under_run]. rewrite fdigit_dec, sep_cons. unfold class. destruct (digit c) as [d|] eqn:E.
    + rewrite IH. assert (a_digit c) by (apply digit_a; by eexists). split.
      * intros H'. split; [done|]. split; [|done]. intros ->. done.
      * tauto.
    + assert (~ a_digit c) by (intros X; apply digit_a in X as [? X]; congruence).
      destruct (decide (c = us)) as [->|Hc].
      * destruct saw; rewrite ?IH; split; try done; try (intros (_ & X & _); specialize (X eq_refl); done); try tauto.
      * destruct saw; rewrite ?IH; split; try done; try (intros (X & _); specialize (X eq_refl); done); try tauto.
Qed.
Lemma separated_sep s : separated s <-> sep SawStart s.
Proof.
  split.
  - intros H. split; [done|]. intros a b E. destruct (H a b E) as (a' & x & y & b' & -> & -> & Hx & Hy).
    split; [by destruct a'|]. split; [intros _; by exists a', x|by exists y, b'].
  - intros [_ H] a b E. destruct (H a b E) as (X1 & X2 & (y & b' & -> & Hy)).
    destruct a as [|c a]; [by specialize (X1 eq_refl)|]. destruct X2 as (a' & x & -> & Hx); [done|]. by exists a', x, y, b'.
Qed.
Lemma sep_suffix saw p c r : sep saw (p +:+ String c r) -> c <> us -> sep SawStart (String c r).
Proof.
  intros [_ H] Hc. split; [done|]. intros [|x a] b E.
  - rewrite app_nil in E. injection E as -> _. done.
  - rewrite app_cons in E. injection E as <- ->. split; [done|].
    destruct (H (p +:+ String c a) b) as (_ & X & Y); [by rewrite app_assoc', app_cons|]. split; [|done]. intros _.
    assert (Hn : p +:+ String c a <> "") by (by destruct p). specialize (X Hn). destruct X as (a' & y & E & Hy).
    clear -E Hy. revert a' E. induction p as [|z p IH]; intros a' E; [by exists a', y|].
    rewrite app_cons in E. destruct a' as [|w a']; [rewrite app_nil in E; injection E as _ E; by destruct p|].
    rewrite app_cons in E. injection E as _ E. by eapply IH.
Qed.
Lemma sep_start c r : sep SawStart (String c r) -> ~ a_digit c -> c <> us /\ sep SawStart r.
Proof.
  rewrite sep_cons. intros (_ & H & Hr) Hd. assert (Hc : c <> us) by (intros E; by specialize (H E)). split; [done|].
  destruct Hr as [_ Hr]. split; [done|]. intros a b E. destruct (Hr a b E) as (X & Y & Z). split; [|done].
  intros E'. specialize (X E'). unfold class in X. destruct (digit c) eqn:E2; [|by rewrite decide_False in X].
  destruct Hd. apply digit_a. by eexists.
Qed.
(** ** Reading *)
Lemma without_cons c r : without_under (String c r) = if decide (c = us) then without_under r else String c (without_under r).
Proof. done. Qed.
Lemma read_mant_without s : forall v f dot any u u0,
  read_mant false (Mant v f dot any u0) (without_under s) =
  match read_mant false (Mant v f dot any u) s with
  | Some (Mant v' f' d' a' _, r) => Some (Mant v' f' d' a' u0, without_under r)
  | None => None
  end.
Proof.
  induction s as [|c r IH]; intros v f dot any u u0; [done|]. rewrite without_cons. cbn [read_mant].
  destruct (decide (c = us)) as [->|Hc]; [apply IH|]. cbn [read_mant]. rewrite decide_False by done.
  destruct (decide (c = "."%char)); [destruct dot; [done|apply IH]|].
  destruct (fdigit false c); [apply IH|]. rewrite without_cons. by rewrite decide_False.
Qed.
Lemma read_mant_rest s : forall v f dot any u m r, read_mant false (Mant v f dot any u) s = Some (m, r) ->
  (exists p, s = p +:+ r /\ ((u = true \/ exists a b, p = a +:+ String us b) -> mt_us m = true)) /\
  (forall c r', r = String c r' -> c <> us /\ ~ a_digit c).
Proof.
  induction s as [|c s IH]; intros v f dot any u m r; cbn [read_mant].
  - intros [= <- <-]. split; [|done]. exists "". split; [done|]. intros [?|([|] & b & E)]; done.
  - destruct (decide (c = us)) as [->|Hc].
    { intros H. apply IH in H as [(p & -> & Hp) H]. split; [|done]. exists (String us p). split; [done|]. intros _. apply Hp. by left. }
    assert (Hstep : forall v f dot any, read_mant false (Mant v f dot any u) s = Some (m, r) ->
      (exists p, String c s = p +:+ r /\ ((u = true \/ exists a b, p = a +:+ String us b) -> mt_us m = true)) /\
      (forall c r', r = String c r' -> c <> us /\ ~ a_digit c)).
    { clear v f dot any. intros v f dot any H. apply IH in H as [(p & -> & Hp) H]. split; [|done]. exists (String c p). split; [done|].
      intros [?|([|x a] & b & E)]; apply Hp; [by left| |].
      - rewrite app_nil in E. injection E as -> _. done.
      - rewrite app_cons in E. injection E as _ ->. right. eauto. }
    destruct (decide (c = "."%char)) as [->|Hd]; [destruct dot; [done|]; apply Hstep|].
    destruct (fdigit false c) eqn:E; [apply Hstep|]. intros [= <- <-]. split.
    + exists "". split; [done|]. intros [?|([|] & b & E')]; done.
    + intros c' r' [= <- <-]. split; [done|]. rewrite fdigit_dec in E. intros X. apply digit_a in X as [? X]. congruence.
Qed.
Lemma read_exp_without s : forall e u u0, read_exp e u0 (without_under s) =
  match read_exp e u s with Some (e', _) => Some (e', u0) | None => None end.
Proof.
  induction s as [|c r IH]; intros e u u0; [done|]. rewrite without_cons. cbn [read_exp].
  destruct (decide (c = us)) as [->|Hc]; [apply IH|]. cbn [read_exp]. rewrite decide_False by done.
  destruct (digit c); [apply IH|done].
Qed.
Lemma read_exp_us s : forall e u e' u', read_exp e u s = Some (e', u') -> (u = true \/ exists a b, s = a +:+ String us b) -> u' = true.
Proof.
  induction s as [|c r IH]; intros e u e' u'; cbn [read_exp].
  - intros [= <- <-] [?|([|] & b & E)]; done.
  - destruct (decide (c = us)) as [->|Hc]; [intros H _; eapply IH; [exact H|by left]|].
    destruct (digit c); [|done]. intros H Hu. eapply IH; [exact H|]. destruct Hu as [?|([|x a] & b & E)]; [by left| |].
    + rewrite app_nil in E. injection E as -> _. done.
    + rewrite app_cons in E. injection E as _ ->. right. eauto.
Qed.
Lemma strip_sign_without s : sep SawStart s -> let '(n, t) := strip_sign s in strip_sign (without_under s) = (n, without_under t) /\ sep SawStart t /\ (t = s \/ exists c, ~ a_digit c /\ s = String c t).
Proof.
  intros H. destruct s as [|c r]; [cbn; auto|]. cbn [strip_sign].
  assert (Hpm : forall c, c = "+"%char \/ c = "-"%char -> ~ a_digit c /\ c <> us).
  { intros x [-> | ->]; (split; [unfold a_digit; vm_compute; lia|done]). }
  destruct (decide (c = "+"%char)) as [->|H1].
  { destruct (Hpm "+"%char) as [X Y]; [auto|]. rewrite without_cons, decide_False by done. split; [done|]. split; [by eapply sep_start|]. right. eauto. }
  destruct (decide (c = "-"%char)) as [->|H2].
  { destruct (Hpm "-"%char) as [X Y]; [auto|]. rewrite without_cons, decide_False by done. split; [done|]. split; [by eapply sep_start|]. right. eauto. }
  assert (Hc : c <> us). { intros ->. apply sep_cons in H as (_ & H & _). by specialize (H eq_refl). }
  rewrite without_cons, decide_False by done. cbn [strip_sign]. rewrite !decide_False by done. by auto.
Qed.
Lemma exp_part_without r : sep SawStart r -> exp_part false (without_under r) =
  match exp_part false r with Some (e, _) => Some (e, false) | None => None end.
Proof.
  intros H. destruct r as [|c r]; [done|].
  assert (Hc : c <> us). { intros ->. apply sep_cons in H as (_ & H & _). by specialize (H eq_refl). }
  rewrite without_cons, decide_False by done. cbn [exp_part]. destruct (decide (lower c = "e"%char)) as [Hl|]; [|done].
  assert (Hd : ~ a_digit c).
  { intros X. apply digit_a in X as [d Hd]. clear -Hl Hd. destruct c as [[] [] [] [] [] [] [] []]; discriminate. }
  destruct (sep_start _ _ H Hd) as [_ Hr]. pose proof (strip_sign_without r Hr) as Hs. destruct (strip_sign r) as [n t].
  destruct Hs as (-> & Ht & _). destruct t as [|x t]; [done|].
  assert (Hx : x <> us). { intros ->. apply sep_cons in Ht as (_ & Ht & _). by specialize (Ht eq_refl). }
  rewrite (read_exp_without (String x t) 0 false false). rewrite without_cons, decide_False by done.
  destruct (digit x); [|done]. destruct (read_exp 0 false (String x t)) as [[e u]|]; done.
Qed.
Lemma exp_part_us r e u : exp_part false r = Some (e, u) -> (exists a b, r = a +:+ String us b) -> (forall c r', r = String c r' -> c <> us) -> u = true.
Proof.
  destruct r as [|c r]; [intros [= <- <-] ([|] & b & E); done|]. cbn [exp_part]. intros H ([|x a] & b & E) Hc.
  { rewrite app_nil in E. injection E as -> ->. by destruct (Hc us b). }
  rewrite app_cons in E. injection E as <- ->. destruct (decide _); [|done].
  destruct (strip_sign (a +:+ String us b)) as [n t] eqn:Es. destruct t as [|y t]; [done|].
  destruct (digit y) eqn:Hy; [|done]. destruct (read_exp 0 false (String y t)) as [[e' u']|] eqn:Er; [|done]. injection H as <- <-.
  eapply read_exp_us; [exact Er|]. right. unfold strip_sign in Es. destruct a as [|w a].
  - rewrite app_nil in Es. rewrite !decide_False in Es by done. injection Es as <- <- <-. by exists "", b.
  - rewrite app_cons in Es. destruct (decide (w = "+"%char)); [injection Es as <- E'; rewrite <- E'; eauto|].
    destruct (decide (w = "-"%char)); [injection Es as <- E'; rewrite <- E'; eauto|]. injection Es as <- <- <-. exists (String w a), b. done.
Qed.
(** ** The characters *)
Fixpoint free (c : ascii) (s : string) : Prop := match s with "" => True | String x s => x <> c /\ free c s end.
Lemma nc_lower c : (48 <= nat_of_ascii c <= 57 \/ c ∈ ["."%char; "+"%char; "-"%char; "e"%char; "E"%char]) -> lower c <> "n"%char /\ lower c <> "x"%char /\ lower c <> "b"%char /\ lower c <> "o"%char.
Proof.
  intros H. repeat split; intros E; (destruct H as [H|H];
    [pose proof (digit_of c H) as Hd; destruct c as [[] [] [] [] [] [] [] []]; discriminate
    |rewrite !elem_of_cons, elem_of_nil in H; repeat destruct H as [H|H]; subst; discriminate || done]).
Qed.
Lemma chars_all s : number_chars (without_under s) -> forall a c b, s = a +:+ String c b -> lower c <> "n"%char /\ lower c <> "x"%char /\ lower c <> "b"%char /\ lower c <> "o"%char.
Proof.
  induction s as [|x s IH]; intros H a c b E; [by destruct a|]. rewrite without_cons in H. destruct a as [|y a].
  - rewrite app_nil in E. injection E as -> ->. destruct (decide (c = us)) as [->|]; [done|]. apply nc_lower. apply H.
  - rewrite app_cons in E. injection E as -> ->. eapply (IH _ a c b); [done|..]. Unshelve. destruct (decide (y = us)); [done|]. apply H.
Qed.
Lemma special_no_n s : (forall a c b, s = a +:+ String c b -> lower c <> "n"%char) -> special s = None.
Proof.
  intros H. assert (Hf : free "n" (lowers s)).
  { induction s as [|c s IH]; [done|]. cbn [lowers free]. split; [by apply (H "" c s)|]. apply IH. intros a x b ->. by apply (H (String c a) x b). }
  assert (HN : forall x, x ∈ ["inf"; "+inf"; "infinity"; "+infinity"] \/ x ∈ ["-inf"; "-infinity"] \/ x = "nan" -> ~ free "n" x).
  { intros x Hx. rewrite !elem_of_cons, !elem_of_nil in Hx. repeat (destruct Hx as [Hx|Hx]); try done; subst; cbn [free]; tauto. }
  unfold special. rewrite !decide_False; [done|..]; intros E; (eapply HN; [|exact Hf]); auto.
Qed.
Lemma underscore_ok_sep s : (forall a c b, s = a +:+ String c b -> lower c <> "x"%char /\ lower c <> "b"%char /\ lower c <> "o"%char) ->
  underscore_ok s = under_run false SawStart (strip_sign s).2.
Proof.
  intros H. unfold underscore_ok. destruct (strip_sign s) as [n t] eqn:Es. cbn [snd].
  assert (Hs : exists p, s = p +:+ t).
  { unfold strip_sign in Es. destruct s as [|c s]; [injection Es as <- <-; by exists ""|].
    destruct (decide _); [injection Es as <- <-; by exists (String c "")|]. destruct (decide _); [injection Es as <- <-; by exists (String c "")|].
    injection Es as <- <-. by exists "". }
  destruct Hs as [p ->]. destruct t as [|z [|c r]]; try done; destruct z as [[] [] [] [] [] [] [] []]; try reflexivity.
  destruct (H (p +:+ String "0" "") c r) as (X1 & X2 & X3); [by rewrite app_assoc', app_cons, app_nil|].
  rewrite decide_False by done. by rewrite decide_False by (intros [?|?]; done).
Qed.
Lemma sep_sign s : sep SawStart s <-> sep SawStart (strip_sign s).2.
Proof.
  split.
  - intros H. pose proof (strip_sign_without s H). destruct (strip_sign s). naive_solver.
  - destruct s as [|c r]; [done|]. unfold strip_sign.
    assert (Hx : forall c, c = "+"%char \/ c = "-"%char -> sep SawStart r -> sep SawStart (String c r)).
    { clear c. intros c Hc [_ H]. apply sep_cons. split; [done|]. split; [intros ->; naive_solver|].
      assert (class c = SawOther) as -> by (destruct Hc as [-> | ->]; done). split; [done|]. intros a b E. destruct (H a b E) as (X & Y & Z).
      split; [|done]. intros E'. by specialize (X E'). }
    destruct (decide (c = "+"%char)); [by apply Hx; auto|]. destruct (decide (c = "-"%char)); [by apply Hx; auto|]. done.
Qed.
Lemma strip_suffix s n t : strip_sign s = (n, t) -> exists p, s = p +:+ t.
Proof.
  intros Es. unfold strip_sign in Es. destruct s as [|c s]; [injection Es as <- <-; by exists ""|].
  destruct (decide _); [injection Es as <- <-; by exists (String c "")|]. destruct (decide _); [injection Es as <- <-; by exists (String c "")|].
  injection Es as <- <-. by exists "".
Qed.
Lemma hex_none s : (forall a c b, s = a +:+ String c b -> lower c <> "x"%char) -> strip_hex s = (false, s).
Proof. intros H. apply strip_hex_num. intros c r ->. by apply (H "0" c r). Qed.
Lemma under_dec s : (exists a b, s = a +:+ String us b) \/ ~ (exists a b, s = a +:+ String us b).
Proof.
  induction s as [|c s IH]; [right; intros ([|] & b & E); done|]. destruct (decide (c = us)) as [->|Hc]; [left; by exists "", s|].
  destruct IH as [(a & b & ->)|IH]; [left; by exists (String c a), b|]. right. intros ([|x a] & b & E).
  - rewrite app_nil in E. injection E as -> _. done.
  - rewrite app_cons in E. injection E as _ ->. eauto.
Qed.
Lemma under_split p r : (exists a b, p +:+ r = a +:+ String us b) -> (exists a b, p = a +:+ String us b) \/ (exists a b, r = a +:+ String us b).
Proof.
  induction p as [|c p IH]; intros (a & b & E); [right; eauto|]. rewrite app_cons in E. destruct a as [|x a].
  - rewrite app_nil in E. injection E as -> _. left. by exists "", p.
  - rewrite app_cons in E. injection E as -> E. destruct IH as [(a' & b' & ->)|?]; [eauto|left; by exists (String x a'), b'|by right].
Qed.
Lemma C91_underscores_main : forall s, number_chars (without_under s) ->
  (separated s -> parse_f64 s = parse_f64 (without_under s)) /\ (~ separated s -> parse_f64 s = None).
Proof.
  intros s Hch. pose proof (chars_all s Hch) as Hc.
  assert (Hww : forall t, without_under (without_under t) = without_under t).
  { induction t as [|c t IH]; [done|]. rewrite without_cons. destruct (decide (c = us)); [done|]. rewrite without_cons, decide_False by done. by rewrite IH. }
  assert (Hc' : forall a c b, without_under s = a +:+ String c b -> lower c <> "n"%char /\ lower c <> "x"%char /\ lower c <> "b"%char /\ lower c <> "o"%char).
  { apply chars_all. by rewrite Hww. }
  rewrite separated_sep. unfold parse_f64. rewrite (special_no_n s) by (intros; by eapply Hc). rewrite (special_no_n (without_under s)) by (intros; by eapply Hc').
  pose proof (underscore_ok_sep s ltac:(intros a c b E; destruct (Hc a c b E); tauto)) as Huo.
  destruct (strip_sign s) as [n t] eqn:Es. pose proof (strip_suffix _ _ _ Es) as [p Hp]. cbn [snd] in Huo.
  assert (Hsep : sep SawStart s <-> sep SawStart t) by (rewrite sep_sign, Es; done).
  rewrite (hex_none t) by (intros a c b ->; apply (Hc (p +:+ a) c b); by rewrite app_assoc').
  split.
  - intros Hs. pose proof (strip_sign_without s Hs) as Hw. rewrite Es in Hw. destruct Hw as (Hw & Ht & _).
    destruct (strip_sign (without_under s)) as [n' t'] eqn:Es'. injection Hw as -> ->. pose proof (strip_suffix _ _ _ Es') as [p' Hp'].
    rewrite (hex_none (without_under t)) by (intros a c b E; apply (Hc' (p' +:+ a) c b); rewrite Hp', E; by rewrite app_assoc').
    rewrite (read_mant_without t 0 0 false false false false). destruct (read_mant false (Mant 0 0 false false false) t) as [[[v f dot any u] r]|] eqn:Er; [|done].
    pose proof (read_mant_rest _ _ _ _ _ _ _ _ Er) as [(q & Hq & _) Hr].
    assert (Hsr : sep SawStart r).
    { destruct r as [|c r]; [split; [done|]; intros [|] b E; done|]. eapply sep_suffix; [rewrite <- Hq; exact Ht|]. by destruct (Hr c r). }
    destruct any; [|done]. rewrite (exp_part_without r Hsr). destruct (exp_part false r) as [[e u']|]; [|done].
    assert (underscore_ok s = true) as -> by (rewrite Huo; by apply under_run_sep). by rewrite andb_false_r.
  - intros Hs.
    destruct (read_mant false (Mant 0 0 false false false) t) as [[[v f dot any u] r]|] eqn:Er; [|done].
    destruct any; [|done]. destruct (exp_part false r) as [[e u']|] eqn:Ee; [|done].
    assert (Hf : underscore_ok s = false).
    { rewrite Huo. destruct (under_run false SawStart t) eqn:X; [|done]. apply under_run_sep in X. by destruct Hs; apply Hsep. }
    rewrite Hf. assert (u || u' = true) as ->; [|done].
    pose proof (read_mant_rest _ _ _ _ _ _ _ _ Er) as [(q & Hq & Hu) Hr]. cbn [mt_us] in Hu.
    assert (Hex : exists a b, t = a +:+ String us b).
    { destruct (under_dec t) as [?|Hn]; [done|]. destruct Hs. apply Hsep. split; [done|]. intros a b E. destruct Hn. eauto. }
    rewrite Hq in Hex. apply under_split in Hex as [Hx|Hx]; [rewrite Hu by auto; done|].
    rewrite (exp_part_us r e u' Ee Hx); [by rewrite orb_true_r|]. intros c r' E. by destruct (Hr c r' E).
Qed.
Lemma C91_underscores_check_main : without_under "1_23.50_0e+1_2" = "123.500e+12" /\ parse_f64 "1_23.50_0e+1_2" = parse_f64 "123.5e12" /\
  is_Some (parse_f64 "123.5e12") /\ parse_f64 "_1" = None /\ parse_f64 "1_" = None /\ parse_f64 "1_.5" = None /\ parse_f64 "1e_5" = None /\ parse_f64 "1__0" = None.
Proof.
  split; [by vm_compute|]. split; [by vm_compute|]. split; [apply (bool_decide_unpack _); by vm_compute|].
  split; [by vm_compute|]. split; [by vm_compute|]. split; [by vm_compute|]. split; by vm_compute.
Qed.
