(** JSON text: what is written is read back. *)
From Verif Require Import M_Json.
From Verif Require Import P_CsvText.

Lemma stake_sdrop n s : stake n s +:+ sdrop n s = s.
Proof. revert s. induction n as [|n IH]; intros [|c s]; try done. cbn [stake sdrop]. rewrite sapp_cons. by rewrite IH. Qed.
Lemma slen_app a b : String.length (a +:+ b) = String.length a + String.length b.
Proof. induction a as [|c a IH]; [done|]. rewrite sapp_cons. cbn [String.length]. lia. Qed.
Lemma slen_sdrop n s : String.length (sdrop n s) = String.length s - n.
Proof. revert s. induction n as [|n IH]; intros [|c s]; try done. cbn [sdrop String.length]. by rewrite IH. Qed.
Lemma stake_app k a u : String.length a = k -> stake k (a +:+ u) = a /\ sdrop k (a +:+ u) = u.
Proof.
  revert k. induction a as [|c a IH]; intros k; cbn [String.length].
  - intros <-. by rewrite sapp_nil_l; destruct u.
  - intros <-. rewrite sapp_cons. cbn [stake sdrop]. destruct (IH _ eq_refl) as [-> ->]. done.
Qed.

Lemma rune_len_app s k u : rune_len s = S k -> rune_len (stake (S k) s +:+ u) = S k /\ String.length (stake (S k) s) = S k.
Proof.
  destruct s as [|a r]; [done|]. cbn [rune_len]. destruct (code a <? 128) eqn:E1.
  { intros [= <-]. cbn [stake]. rewrite sapp_cons. cbn [rune_len]. rewrite E1. done. }
  destruct r as [|b r]; [done|]. destruct (brange 194 (code a) 223) eqn:E2.
  { destruct (cont b) eqn:E3; [|done]. intros [= <-]. cbn [stake]. rewrite !sapp_cons. cbn [rune_len]. rewrite E1, E2, E3. done. }
  destruct r as [|c r]; [done|]. destruct (brange 224 (code a) 239) eqn:E3.
  { destruct (_ && cont c) eqn:E4; [|done]. intros [= <-]. cbn [stake]. rewrite !sapp_cons. cbn [rune_len]. rewrite E1, E2, E3, E4. done. }
  destruct r as [|d r]; [done|]. destruct (brange 240 (code a) 244) eqn:E4; [|done].
  destruct (_ && cont d) eqn:E5; [|done]. intros [= <-]. cbn [stake]. rewrite !sapp_cons. cbn [rune_len]. rewrite E1, E2, E3, E4, E5. done.
Qed.
Lemma rune_len_1 c r : rune_len (String c r) = 1 -> code c < 128.
Proof.
  cbn [rune_len]. destruct (Nat.ltb_spec (code c) 128); [done|]. destruct r as [|b r]; [done|].
  destruct (brange 194 _ 223); [by destruct (cont b)|]. destruct r as [|e r]; [done|].
  destruct (brange 224 _ 239); [by destruct (_ && _)|]. destruct r as [|d r]; [done|]. destruct (brange 240 _ 244); [|done]. by destruct (_ && _).
Qed.
Lemma rune_len_ascii c r : code c < 128 -> rune_len (String c r) = 1.
Proof. intros H. cbn [rune_len]. apply Nat.ltb_lt in H. by rewrite H. Qed.
Lemma rune_len_big c r : rune_len (String c r) <> 1 -> 128 <= code c.
Proof. intros H. destruct (decide (code c < 128)) as [Hc|]; [|lia]. by rewrite rune_len_ascii in H. Qed.

(** ** Strings *)
(** Every byte below 128. *)
Lemma quote_byte_spec c : code c < 128 ->
  (safe_byte c = true /\ quote_byte c = String c "" /\ c <> cQuote /\ c <> bslash /\ 32 <= code c) \/
  (exists t, quote_byte c = String bslash t /\ forall r, unescape (t +:+ r) = Some (String c "", r)).
Proof.
  intros Hc. destruct (safe_byte c) eqn:E.
  - left. split; [done|]. unfold quote_byte. rewrite E. split; [done|]. unfold safe_byte in E. apply andb_true_iff in E as [E1%Nat.leb_le E2].
    apply negb_true_iff, bool_decide_eq_false_1 in E2. split; [naive_solver|]. split; [naive_solver|done].
  - right. revert Hc E. destruct c as [[] [] [] [] [] [] [] []]; intros Hc E; try (vm_compute in E; discriminate E);
      try (exfalso; apply Nat.ltb_lt in Hc; vm_compute in Hc; discriminate Hc); (eexists; split; [vm_compute; reflexivity|intros r; vm_compute; reflexivity]).
Qed.
Lemma pstr_quote n s : String.length s <= n -> forall m rest, String.length (quote_ n s) < m ->
  pstr m (quote_ n s +:+ String cQuote rest) = Some (sanitize_ n s, rest).
Proof.
  revert s. induction n as [|n IH]; intros s Hn m rest Hm.
  { destruct s; [|cbn in Hn; lia]. destruct m as [|m]; [lia|]. done. }
  destruct s as [|c r].
  { destruct m as [|m]; [lia|]. done. }
  cbn [String.length] in Hn. cbn [quote_ sanitize_] in *.
  destruct (rune_len (String c r)) as [|[|k]] eqn:Ek.
  - (* not a character *)
    rewrite slen_app in Hm. cbn [String.length] in Hm. destruct m as [|m]; [lia|].
    rewrite sapp_assoc. change ("\ufffd" +:+ ?x) with (String bslash ("ufffd" +:+ x)). cbn [pstr].
    rewrite decide_False by done. rewrite decide_True by done.
    assert (U : forall x, unescape ("ufffd" +:+ x) = Some (replacement, x)) by (intros; vm_compute; reflexivity).
    rewrite U, IH by lia. done.
  - (* a byte below 128 *)
    apply rune_len_1 in Ek. cbn [stake sdrop]. destruct (quote_byte_spec c Ek) as [(_ & Hqb & Hq & Hb & H32)|(t & Hqb & Ht)]; rewrite Hqb in Hm |- *; clear Hqb.
    + rewrite sapp_assoc. rewrite !sapp_cons, !sapp_nil_l in *. cbn [String.length] in Hm. destruct m as [|m]; [lia|]. cbn [pstr].
      rewrite !decide_False by done. replace (code c <? 32) with false by (symmetry; apply Nat.ltb_ge; lia).
      rewrite rune_len_ascii by done. cbn [stake sdrop]. by rewrite IH by lia.
    + rewrite sapp_assoc. rewrite !sapp_cons in *. cbn [String.length] in Hm. rewrite slen_app in Hm. destruct m as [|m]; [lia|]. cbn [pstr].
      rewrite decide_False by done. rewrite decide_True by done. rewrite Ht, IH by lia. done.
  - (* a character of several bytes *)
    pose proof (rune_len_big c r ltac:(lia)) as H128. set (k' := S (S k)) in *.
    assert (Ha : forall u, rune_len (stake k' (String c r) +:+ u) = k' /\ String.length (stake k' (String c r)) = k') by (intros u; by apply rune_len_app).
    assert (Hd : String.length (sdrop k' (String c r)) <= n) by (rewrite slen_sdrop; cbn [String.length]; lia).
    destruct (decide (stake k' (String c r) = utf8_enc 8232 \/ stake k' (String c r) = utf8_enc 8233)) as [Hsep|Hsep].
    + assert (U : exists t, quote_rune (stake k' (String c r)) = String bslash t /\ forall x, unescape (t +:+ x) = Some (stake k' (String c r), x)).
      { unfold quote_rune. destruct Hsep as [-> | ->]; (eexists; split; [vm_compute; reflexivity|intros; vm_compute; reflexivity]). }
      destruct U as (t & Hqr & Hu). rewrite Hqr in Hm |- *. rewrite sapp_assoc. rewrite !sapp_cons in *. cbn [String.length] in Hm. rewrite slen_app in Hm.
      destruct m as [|m]; [lia|]. cbn [pstr]. rewrite decide_False by done. rewrite decide_True by done. rewrite Hu, IH by (done || lia). done.
    + unfold quote_rune in *. rewrite !decide_False in * by naive_solver. rewrite slen_app in Hm. rewrite sapp_assoc.
      set (x := quote_ n _ +:+ _). destruct (Ha x) as [Hr Hl]. rewrite Hl in Hm.
      destruct m as [|m]; [lia|].
      assert (E : exists y, stake k' (String c r) +:+ x = String c y) by (unfold k'; cbn [stake]; rewrite sapp_cons; by eexists).
      destruct E as [y Ey]. pose proof (stake_app k' (stake k' (String c r)) x Hl) as [E1 E2]. rewrite Ey in Hr, E1, E2 |- *. cbn [pstr].
      assert (Hq1 : c <> cQuote) by (intros ->; apply Nat.leb_le in H128; vm_compute in H128; done).
      assert (Hq2 : c <> bslash) by (intros ->; apply Nat.leb_le in H128; vm_compute in H128; done).
      rewrite decide_False by done. rewrite decide_False by done. replace (code c <? 32) with false by (symmetry; apply Nat.ltb_ge; lia).
      rewrite Hr. fold k'. unfold k' at 1. fold k'. rewrite E1, E2. unfold x. rewrite IH by (done || lia). done.
Qed.

(** ** Values *)
Section ind.
Context (P : json -> Prop) (Hnull : P JNull) (Hbool : forall b, P (JBool b)) (Hnum : forall s, P (JNum s)) (Hstr : forall s, P (JStr s))
  (Harr : forall l, Forall P l -> P (JArr l)) (Hobj : forall l, Forall (fun p => P p.2) l -> P (JObj l)).
Fixpoint json_ind' (v : json) : P v :=
  match v with
  | JNull => Hnull | JBool b => Hbool b | JNum s => Hnum s | JStr s => Hstr s
  | JArr l => Harr l ((fix go l := match l return Forall P l with [] => @List.Forall_nil _ _ | v :: l => @List.Forall_cons _ _ v l (json_ind' v) (go l) end) l)
  | JObj l => Hobj l ((fix go l := match l return Forall (fun p => P p.2) l with [] => @List.Forall_nil _ _ | (k, v) :: l => @List.Forall_cons _ (fun p => P p.2) (k, v) l (json_ind' v) (go l) end) l)
  end.
End ind.
(** Numbers are spelled as JSON wants; a value without the bytes that are not
    part of characters. *)
Inductive jok : json -> Prop :=
  | jok_null : jok JNull | jok_bool b : jok (JBool b) | jok_str s : jok (JStr s)
  | jok_num s : json_number s = true -> jok (JNum s)
  | jok_arr l : Forall jok l -> jok (JArr l)
  | jok_obj l : Forall (fun p => jok p.2) l -> jok (JObj l).
Fixpoint jsan (v : json) : json :=
  match v with
  | JStr s => JStr (sanitize s)
  | JArr l => JArr (map jsan l)
  | JObj l => JObj (map (fun p => (sanitize p.1, jsan p.2)) l)
  | v => v
  end.
Fixpoint jw (v : json) : nat :=
  match v with
  | JArr l => 1 + sum_list_with (fun v => 1 + jw v) l
  | JObj l => 1 + sum_list_with (fun p => 1 + jw p.2) l
  | _ => 1
  end.

Lemma num_step_char q c q' : num_step q c = Some q' -> num_char c = true.
Proof.
  unfold num_char. destruct (brange 48 (code c) 57) eqn:E; [done|]. cbn [orb]. intros H. apply bool_decide_eq_true_2.
  destruct q; cbn [num_step] in H; rewrite ?E in H; repeat (case_decide; [naive_solver|]); done.
Qed.
Definition stops (rest : string) : Prop := match rest with "" => True | String c _ => num_char c = false end.
Lemma num_span_app q q' s rest : num_run q s = Some q' -> stops rest -> num_span (s +:+ rest) = (s, rest).
Proof.
  revert q. induction s as [|c s IH]; intros q; cbn [num_run].
  - intros _ Hs. rewrite sapp_nil_l. destruct rest as [|c r]; [done|]. cbn [num_span]. by rewrite Hs.
  - destruct (num_step q c) eqn:E; [|done]. intros H Hs. rewrite sapp_cons. cbn [num_span]. rewrite (num_step_char _ _ _ E). by rewrite (IH _ H Hs).
Qed.
Lemma number_first s : json_number s = true -> exists c r, s = String c r /\ (c = "-"%char \/ brange 48 (code c) 57 = true).
Proof.
  unfold json_number. destruct s as [|c r]; [done|]. cbn [num_run num_step]. intros H. exists c, r. split; [done|].
  destruct (decide (c = "-"%char)) as [->|]; [by left|]. right. destruct (decide (c = "0"%char)) as [->|]; [done|]. by destruct (brange 48 (code c) 57).
Qed.
Lemma concat_cons2 a b l : String.concat "," (a :: b :: l) = a +:+ String "," (String.concat "," (b :: l)).
Proof. done. Qed.
Lemma skip_not c r : jblank c = false -> jskip (String c r) = String c r.
Proof. intros H. cbn [jskip]. by rewrite H. Qed.
Lemma number_char c : c = "-"%char \/ brange 48 (code c) 57 = true ->
  jblank c = false /\ c <> cQuote /\ c <> "{"%char /\ c <> "["%char /\ c <> "n"%char /\ c <> "t"%char /\ c <> "f"%char.
Proof.
  intros H. assert (D : forall x : ascii, brange 48 (code x) 57 = false -> x <> "-"%char -> c <> x) by (intros x Hx Hn ->; destruct H; congruence).
  split; [|repeat split; by apply D]. unfold jblank. apply bool_decide_eq_false_2. intros [?|[?|[?|?]]]; by eapply D; [| |eassumption].
Qed.
(** The first byte of a value decides nothing wrong. *)
Lemma jtext_first v : jok v -> exists c r, jtext v = String c r /\ jblank c = false /\ c <> "]"%char /\ c <> "}"%char.
Proof.
  intros H. destruct v as [|[]|s|s|l|l]; cbn [jtext]; try (eexists _, _; split; [reflexivity|done]).
  inversion H as [| | |? Hn| |]; subst. destruct (number_first _ Hn) as (c & r & -> & Hc). exists c, r. split; [done|].
  assert (D : forall x : ascii, brange 48 (code x) 57 = false -> x <> "-"%char -> c <> x) by (intros x Hx Hn' ->; destruct Hc; congruence).
  split; [by apply number_char|]. split; by apply D.
Qed.
Lemma pstr_quoted s rest : forall t, t = quote_ (String.length s) s +:+ String cQuote rest -> pstr (String.length t) t = Some (sanitize s, rest).
Proof. intros t ->. apply pstr_quote; [done|]. rewrite slen_app. cbn [String.length]. lia. Qed.
Lemma key_text k rest : jkey (jquote k +:+ String ":" rest) = Some (sanitize k, rest).
Proof.
  unfold jkey, jquote. rewrite sapp_cons, sapp_assoc, sapp_cons, sapp_nil_l. rewrite skip_not by done. rewrite decide_True by done.
  erewrite pstr_quoted by reflexivity. done.
Qed.
Lemma key_quote_first k rest : exists r, jquote k +:+ rest = String cQuote r.
Proof. unfold jquote. rewrite sapp_cons. by eexists. Qed.

Lemma pval_text v : jok v -> forall n rest, jw v <= n -> stops rest -> pval n (jtext v +:+ rest) = Some (jsan v, rest).
Proof.
  induction v as [|b|s|s|l IH|l IH] using json_ind'; intros Hok n rest Hn Hr; (destruct n as [|n]; [cbn [jw] in Hn; lia|]).
  - done.
  - by destruct b.
  - inversion Hok as [| | |? Hs| |]; subst. destruct (number_first _ Hs) as (c & r & Es & Hc). destruct (number_char c Hc) as (N0 & N1 & N2 & N3 & N4 & N5 & N6).
    cbn [jtext jsan]. assert (E : num_span (s +:+ rest) = (s, rest)).
    { unfold json_number in Hs. destruct (num_run NStart s) eqn:Er; [|done]. by eapply num_span_app. }
    rewrite Es in E |- *. rewrite sapp_cons in E |- *. cbn [pval]. rewrite skip_not by done. rewrite !decide_False by done. rewrite E. rewrite <- Es, Hs. done.
  - cbn [jtext jsan]. unfold jquote. rewrite sapp_cons, sapp_assoc, sapp_cons, sapp_nil_l. cbn [pval]. rewrite skip_not by done. rewrite decide_True by done.
    erewrite pstr_quoted by reflexivity. done.
  - inversion Hok as [| | | |? Hl|]; subst. clear Hok. cbn [jtext jsan jw] in *. rewrite sapp_assoc, sapp_cons, sapp_nil_l. cbn [pval].
    rewrite skip_not by done. rewrite decide_False by done. rewrite decide_False by done. rewrite decide_True by done.
    destruct l as [|v l]; [done|].
    assert (P : forall n, sum_list_with (fun v => 1 + jw v) (v :: l) <= n ->
      pelems n (String.concat "," (map jtext (v :: l)) +:+ ("]" +:+ rest)) = Some (map jsan (v :: l), rest)).
    { clear n Hn. revert v IH Hl. induction l as [|v2 l IHl]; intros v IH Hl n Hn;
        cbn [map sum_list_with Nat.add] in Hn; (destruct n as [|n]; [lia|]); cbn [pelems];
        apply Forall_cons in IH as [IHv IH]; apply Forall_cons in Hl as [Hv Hl].
      - cbn [map String.concat]. rewrite IHv by (done || lia). rewrite sapp_cons. rewrite skip_not by done. done.
      - cbn [map]. rewrite concat_cons2. rewrite sapp_assoc, sapp_cons. rewrite IHv by (done || lia). rewrite skip_not by done.
        specialize (IHl v2 IH Hl n). cbn [map] in IHl. rewrite IHl by (cbn [map sum_list_with Nat.add]; lia). done. }
    assert (F : exists c r, String.concat "," (map jtext (v :: l)) +:+ ("]" +:+ rest) = String c r /\ jblank c = false /\ c <> "]"%char).
    { apply Forall_cons in Hl as [Hv Hl]. destruct (jtext_first v Hv) as (c & r & E & B & C & _). destruct l as [|v2 l].
      - cbn [map String.concat]. rewrite E, sapp_cons. by eexists _, _.
      - cbn [map]. rewrite concat_cons2, E, !sapp_cons. by eexists _, _. }
    destruct F as (c & r & F & B & C). specialize (P n ltac:(lia)). rewrite F in P. rewrite sapp_assoc, F. rewrite skip_not by done. rewrite P.
    clear -C. by destruct c as [[] [] [] [] [] [] [] []].
  - inversion Hok as [| | | | |? Hl]; subst. clear Hok. cbn [jtext jsan jw] in *. rewrite sapp_assoc, sapp_cons, sapp_nil_l. cbn [pval].
    rewrite skip_not by done. rewrite decide_False by done. rewrite decide_True by done.
    destruct l as [|[k v] l]; [done|]. set (f := fun p : string * json => jquote p.1 +:+ (":" +:+ jtext p.2)).
    assert (P : forall n, sum_list_with (fun p => 1 + jw p.2) ((k, v) :: l) <= n ->
      pfields n (String.concat "," (map f ((k, v) :: l)) +:+ ("}" +:+ rest)) = Some (map (fun p => (sanitize p.1, jsan p.2)) ((k, v) :: l), rest)).
    { clear n Hn. revert k v IH Hl. induction l as [|[k2 v2] l IHl]; intros k v IH Hl n Hn;
        cbn [map sum_list_with Nat.add snd] in Hn; (destruct n as [|n]; [lia|]); cbn [pfields];
        apply Forall_cons in IH as [IHv IH]; apply Forall_cons in Hl as [Hv Hl]; cbn [fst snd] in *.
      - cbn [map String.concat f fst snd]. unfold f. cbn [fst snd]. rewrite !sapp_assoc, sapp_cons, sapp_nil_l. rewrite key_text. rewrite IHv by (done || lia).
        rewrite sapp_cons. rewrite skip_not by done. done.
      - cbn [map]. rewrite concat_cons2, sapp_assoc, sapp_cons. set (T := String.concat _ _ +:+ _). unfold f at 1. cbn [fst snd]. rewrite !sapp_assoc, !sapp_cons, sapp_nil_l. rewrite key_text. rewrite IHv by (done || lia). rewrite skip_not by done.
        specialize (IHl k2 v2 IH Hl n). cbn [map] in IHl. unfold T. rewrite IHl by (cbn [map sum_list_with Nat.add snd]; lia). done. }
    assert (F : exists r, String.concat "," (map f ((k, v) :: l)) +:+ ("}" +:+ rest) = String cQuote r).
    { destruct l as [|[k2 v2] l].
      - cbn [map String.concat]. unfold f. cbn [fst snd]. rewrite !sapp_assoc. apply key_quote_first.
      - cbn [map]. rewrite concat_cons2. unfold f at 1. cbn [fst snd]. rewrite !sapp_assoc. apply key_quote_first. }
    destruct F as (r & F). specialize (P n ltac:(lia)). rewrite F in P. rewrite sapp_assoc, F. rewrite skip_not by done. rewrite P. done.
Qed.
Lemma jw_text v : jok v -> jw v <= 2 * String.length (jtext v).
Proof.
  induction v as [|b|s|s|l IH|l IH] using json_ind'; intros Hok.
  - cbn. lia.
  - destruct b; cbn; lia.
  - inversion Hok as [| | |? Hs| |]; subst. destruct (number_first _ Hs) as (c & r & -> & _). cbn. lia.
  - cbn [jw jtext]. unfold jquote. cbn [String.length]. lia.
  - inversion Hok as [| | | |? Hl|]; subst. clear Hok. cbn [jtext jw]. rewrite !slen_app. cbn [String.length].
    assert (sum_list_with (fun v => 1 + jw v) l <= 2 * String.length (String.concat "," (map jtext l)) + 1); [|lia].
    induction l as [|v [|v2 l] IHl]; [cbn; lia| |]; apply Forall_cons in IH as [IHv IH]; apply Forall_cons in Hl as [Hv Hl]; specialize (IHv Hv).
    + cbn [map sum_list_with String.concat]. lia.
    + specialize (IHl IH Hl). cbn [map] in *. rewrite concat_cons2. rewrite slen_app. cbn [String.length]. cbn [sum_list_with] in *. lia.
  - inversion Hok as [| | | | |? Hl]; subst. clear Hok. cbn [jtext jw]. rewrite !slen_app. cbn [String.length].
    set (f := fun p : string * json => jquote p.1 +:+ (":" +:+ jtext p.2)).
    assert (Hf : forall p, String.length (jtext p.2) + 1 <= String.length (f p)) by (intros p; unfold f; rewrite !slen_app; cbn [String.length]; lia).
    assert (sum_list_with (fun p => 1 + jw p.2) l <= 2 * String.length (String.concat "," (map f l)) + 1); [|lia].
    induction l as [|v [|v2 l] IHl]; [cbn; lia| |]; apply Forall_cons in IH as [IHv IH]; apply Forall_cons in Hl as [Hv Hl]; specialize (IHv Hv); pose proof (Hf v).
    + cbn [map sum_list_with String.concat]. lia.
    + specialize (IHl IH Hl). cbn [map] in *. rewrite concat_cons2. rewrite slen_app. cbn [String.length]. cbn [sum_list_with] in *. lia.
Qed.
Lemma jparse_text v : jok v -> jparse (jtext v) = Some (jsan v).
Proof.
  intros H. unfold jparse. rewrite <- (sapp_nil (jtext v)) at 2. rewrite pval_text; [done|done| |done]. pose proof (jw_text v H). lia.
Qed.
