(** JSON: the structures come back. *)
From Verif Require Import M_Json.
From Verif Require Import Spec_Json P_CsvText P_Csv4 P_Json.

(** ** UTF-8 *)
Lemma brange_spec a c b : brange a c b = true <-> a <= c <= b.
Proof. unfold brange. rewrite andb_true_iff, !Nat.leb_le. done. Qed.
Lemma brange_false a c b : brange a c b = false <-> ~ (a <= c <= b).
Proof. rewrite <- brange_spec. by destruct (brange a c b). Qed.
Lemma utf8_sanitize_ n s : utf8 s -> String.length s <= n -> sanitize_ n s = s.
Proof.
  intros H. revert n. induction H as [|a s Ha H IH|a b s Ha Hb H IH|a b c s Hab Hc H IH|a b c d s Hab Hc Hd H IH]; intros [|n] Hn; cbn [String.length] in Hn; try lia; try done;
    cbn [sanitize_].
  - rewrite rune_len_ascii by lia. cbn [stake sdrop]. rewrite IH by lia. done.
  - assert (E : rune_len (String a (String b s)) = 2).
    { cbn [rune_len]. replace (code a <? 128) with false by (symmetry; apply Nat.ltb_ge; lia).
      replace (brange 194 (code a) 223) with true by (symmetry; by apply brange_spec). unfold cont. by rewrite (proj2 (brange_spec _ _ _) Hb). }
    rewrite E. cbn [stake sdrop]. rewrite IH by lia. done.
  - assert (E : rune_len (String a (String b (String c s))) = 3).
    { cbn [rune_len]. unfold tail_byte in *. replace (code a <? 128) with false by (symmetry; apply Nat.ltb_ge; lia).
      replace (brange 194 (code a) 223) with false by (symmetry; apply brange_false; lia).
      replace (brange 224 (code a) 239) with true by (symmetry; apply brange_spec; lia). unfold cont. rewrite (proj2 (brange_spec _ _ _) Hc), andb_true_r.
      replace (brange _ (code b) _) with true; [done|]. symmetry. apply brange_spec.
      destruct (Nat.eqb_spec (code a) 224), (Nat.eqb_spec (code a) 237); lia. }
    rewrite E. cbn [stake sdrop]. rewrite IH by lia. done.
  - assert (E : rune_len (String a (String b (String c (String d s)))) = 4).
    { cbn [rune_len]. unfold tail_byte in *. replace (code a <? 128) with false by (symmetry; apply Nat.ltb_ge; lia).
      replace (brange 194 (code a) 223) with false by (symmetry; apply brange_false; lia).
      replace (brange 224 (code a) 239) with false by (symmetry; apply brange_false; lia).
      replace (brange 240 (code a) 244) with true by (symmetry; apply brange_spec; lia). unfold cont.
      rewrite (proj2 (brange_spec _ _ _) Hc), (proj2 (brange_spec _ _ _) Hd), !andb_true_r.
      replace (brange _ (code b) _) with true; [done|]. symmetry. apply brange_spec.
      destruct (Nat.eqb_spec (code a) 240), (Nat.eqb_spec (code a) 244); lia. }
    rewrite E. cbn [stake sdrop]. rewrite IH by lia. done.
Qed.
Lemma utf8_sanitize s : utf8 s -> sanitize s = s.
Proof. intros H. by apply utf8_sanitize_. Qed.
(** A character in front. *)
Lemma utf8_rune s k t : rune_len s = S k -> utf8 t -> utf8 (stake (S k) s +:+ t).
Proof.
  destruct s as [|a r]; [done|]. cbn [rune_len]. destruct (Nat.ltb_spec (code a) 128) as [E1|E1].
  { intros [= <-] Ht. cbn [stake]. rewrite sapp_cons, sapp_nil_l. apply utf8_1; [lia|done]. }
  destruct r as [|b r]; [done|]. destruct (brange 194 (code a) 223) eqn:E2.
  { destruct (cont b) eqn:E3; [|done]. intros [= <-] Ht. cbn [stake]. rewrite !sapp_cons, sapp_nil_l. apply brange_spec in E2, E3. by apply utf8_2. }
  destruct r as [|c r]; [done|]. destruct (brange 224 (code a) 239) eqn:E3.
  { destruct (_ && cont c) eqn:E4; [|done]. intros [= <-] Ht. cbn [stake]. rewrite !sapp_cons, sapp_nil_l.
    apply andb_true_iff in E4 as [E4 E5]. apply brange_spec in E3, E4, E5. apply utf8_3; [|done|done]. unfold tail_byte.
    destruct (Nat.eqb_spec (code a) 224), (Nat.eqb_spec (code a) 237); lia. }
  destruct r as [|d r]; [done|]. destruct (brange 240 (code a) 244) eqn:E4; [|done].
  destruct (_ && cont d) eqn:E5; [|done]. intros [= <-] Ht. cbn [stake]. rewrite !sapp_cons, sapp_nil_l.
  apply andb_true_iff in E5 as [[E5 E6]%andb_true_iff E7]. apply brange_spec in E4, E5, E6, E7. apply utf8_4; [|done|done|done]. unfold tail_byte.
  destruct (Nat.eqb_spec (code a) 240), (Nat.eqb_spec (code a) 244); lia.
Qed.
Lemma sanitize_utf8_ n s : String.length s <= n -> utf8 (sanitize_ n s).
Proof.
  revert s. induction n as [|n IH]; intros [|c r] Hn; cbn [String.length] in Hn; try lia; try apply utf8_nil. cbn [sanitize_].
  destruct (rune_len (String c r)) as [|k] eqn:E.
  - change replacement with (stake 3 replacement). apply (utf8_rune replacement 2); [by vm_compute|]. apply IH. lia.
  - apply utf8_rune; [done|]. apply IH. rewrite slen_sdrop. cbn [String.length]. lia.
Qed.
Lemma sanitize_utf8 s : utf8 (sanitize s).
Proof. by apply sanitize_utf8_. Qed.
Lemma sanitize_id s : sanitize s = s <-> utf8 s.
Proof. split; [intros <-; apply sanitize_utf8|apply utf8_sanitize]. Qed.
Lemma utf8_app a b : utf8 a -> utf8 b -> utf8 (a +:+ b).
Proof. intros Ha Hb. induction Ha; rewrite ?sapp_cons, ?sapp_nil_l; [done|by constructor..]. Qed.
(** Digits. *)
Lemma utf8_N_go x : forall s, utf8 s -> utf8 (pretty_N_go x s).
Proof.
  induction (N.lt_wf_0 x) as [x _ IH]; intros s Hs. destruct (decide (x = 0)%N) as [->|Hx]; [by rewrite pretty_N_go_0|].
  rewrite pretty_N_go_step by lia. apply IH; [apply N.div_lt; lia|]. apply utf8_1; [|done].
  assert (x `mod` 10 < 10)%N as Hm by (apply N.mod_lt; lia). revert Hm. generalize (x `mod` 10)%N. intros y Hy.
  assert (y = 0 \/ y = 1 \/ y = 2 \/ y = 3 \/ y = 4 \/ y = 5 \/ y = 6 \/ y = 7 \/ y = 8 \/ y = 9)%N as H by lia.
  apply Nat.leb_le. destruct H as [->|[->|[->|[->|[->|[->|[->|[->|[->| ->]]]]]]]]]; by vm_compute.
Qed.
Lemma utf8_N (x : N) : utf8 (pretty x).
Proof. unfold pretty, pretty_N. destruct (decide (x = 0)%N); [apply utf8_1; [apply Nat.leb_le; by vm_compute|apply utf8_nil]|]. apply utf8_N_go, utf8_nil. Qed.
Lemma utf8_Z (z : Z) : utf8 (pretty z).
Proof.
  destruct z as [|p|p]; [apply (utf8_N 0)|apply (utf8_N (N.pos p))|]. change (pretty (Z.neg p)) with (String "-"%char (pretty (N.pos p))).
  apply utf8_1; [apply Nat.leb_le; by vm_compute|]. apply utf8_N.
Qed.

(** ** Codecs *)
Section codec.
Context {jrt : JsonRT}.
(** Everything that satisfies [P] can be written and comes back. *)
Definition codec {A} (P : A -> Prop) (f : A -> option json) (g : json -> option A) : Prop :=
  forall x, P x -> exists v, f x = Some v /\ jok v /\ g (jsan v) = Some x.

Lemma finite_spec x : f64_isfinite x = true <-> finite x.
Proof. unfold finite. destruct x; cbn; naive_solver. Qed.
Lemma num_codec : exact_numbers -> codec (fun x => is_f64 x /\ finite x) num_json jnum_of.
Proof.
  intros HE x [Hx Hf]. destruct (HE x Hx Hf) as [H1 H2]. exists (JNum (fmt_num x)). unfold num_json. rewrite (proj2 (finite_spec x) Hf).
  split; [done|]. split; [by constructor|done].
Qed.
Lemma str_codec : codec utf8 (fun s => Some (JStr s)) jstr_of.
Proof. intros s Hs. exists (JStr s). split; [done|]. split; [constructor|]. cbn [jsan jstr_of]. by rewrite utf8_sanitize. Qed.
Lemma list_codec {A} (P : A -> Prop) f g : codec P f g -> codec (Forall P) (list_json f) (list_of g).
Proof.
  intros HC l Hl. unfold list_json. destruct (decide (l = [])) as [->|Hne].
  { exists JNull. split; [done|]. split; [constructor|done]. }
  clear Hne. assert (H : exists vs, mapM f l = Some vs /\ Forall jok vs /\ mapM g (map jsan vs) = Some l).
  { induction Hl as [|x l Hx Hl (vs & E1 & E2 & E3)]; [by exists []|]. destruct (HC x Hx) as (v & F1 & F2 & F3). exists (v :: vs).
    split; [cbn; by rewrite F1; cbn; rewrite E1|]. split; [by constructor|]. cbn. rewrite F3. cbn. by rewrite E3. }
  destruct H as (vs & E1 & E2 & E3). exists (JArr vs). rewrite E1. split; [done|]. split; [by constructor|done].
Qed.
(** The entries of a map, in any order. *)
Lemma put_all {K A} `{Countable K} (g : json -> option A) (gk : string -> option K) (l : list (string * json)) (kx : list (K * A)) m0 :
  Forall2 (fun p q => gk p.1 = Some q.1 /\ g p.2 = Some q.2) l kx ->
  foldl (jput g gk) (Some m0) l = Some (foldl (fun m q => <[q.1 := q.2]> m) m0 kx).
Proof.
  intros HF. revert m0. induction HF as [|[k v] [z x] l kx [H1 H2] HF IH]; intros m0; [done|]. cbn [foldl]. cbn [fst snd] in *.
  unfold jput at 2. cbn [fst snd mbind option_bind]. rewrite H1. cbn [mbind option_bind]. rewrite H2. cbn [mbind option_bind]. apply IH.
Qed.
Lemma foldl_map {K A} `{Countable K} (kx : list (K * A)) m : kx ≡ₚ map_to_list m -> foldl (fun m q => <[q.1 := q.2]> m) ∅ kx = m.
Proof.
  intros HP. assert (Hnd : NoDup (kx.*1)) by (rewrite HP; apply NoDup_fst_map_to_list).
  assert (G : forall m0 : gmap K A, NoDup (kx.*1) -> foldl (fun m q => <[q.1 := q.2]> m) m0 kx = list_to_map kx ∪ m0).
  { clear. induction kx as [|[k x] kx IH]; intros m0 Hnd; [by rewrite list_to_map_nil, (left_id_L ∅ (∪))|]. cbn [foldl fst snd]. apply NoDup_cons in Hnd as [Hk Hnd].
    rewrite IH by done. rewrite list_to_map_cons. rewrite <- insert_union_r; [by rewrite insert_union_l|]. by apply not_elem_of_list_to_map_1. }
  rewrite G by done. rewrite (right_id_L ∅ (∪)). rewrite (list_to_map_proper _ _ Hnd HP). apply list_to_map_to_list.
Qed.
Lemma map_write {A} (f : A -> option json) (m : gmap string A) (kx : list (string * A)) vs : kx ≡ₚ map_to_list m ->
  kx.*1 = sort_strings (elements (dom m)) -> Forall2 (fun q v => f q.2 = Some v) kx vs -> m <> ∅ ->
  map_json f m = Some (JObj (zip (kx.*1) vs)).
Proof.
  intros HP Hk HF Hne. unfold map_json. rewrite decide_False by done. rewrite <- Hk.
  assert (Hin : forall q, q ∈ kx -> m !! q.1 = Some q.2) by (intros [k x]; rewrite HP; apply elem_of_map_to_list).
  clear HP Hk. assert (E : mapM (fun k => v ← m !! k; (k,.) <$> f v) kx.*1 = Some (zip kx.*1 vs)); [|by rewrite E].
  induction HF as [|[k x] v kx vs Hv HF IH]; [done|]. cbn [fmap list_fmap fst zip zip_with]. cbn [mapM mbind option_bind].
  pose proof (Hin (k, x) ltac:(left)) as Hkx. cbn [fst snd] in Hkx. rewrite Hkx. cbn [mbind option_bind snd] in *. rewrite Hv. cbn [fmap option_fmap option_map]. rewrite IH; [done|].
  intros q Hq. apply Hin. by right.
Qed.
Lemma sorted_entries {A} (m : gmap string A) : exists kx, kx ≡ₚ map_to_list m /\ kx.*1 = sort_strings (elements (dom m)).
Proof.
  assert (HP : sort_strings (elements (dom m)) ≡ₚ (map_to_list m).*1).
  { unfold sort_strings. rewrite merge_sort_Permutation. apply NoDup_Permutation; [apply NoDup_elements|apply NoDup_fst_map_to_list|].
    intros k. rewrite elem_of_elements, elem_of_dom, elem_of_list_fmap. split.
    - intros [x Hx]. exists (k, x). split; [done|]. by apply elem_of_map_to_list.
    - intros ([k' x] & -> & Hx%elem_of_map_to_list). by eexists. }
  apply Permutation_map_inv in HP as (kx & E & HP). by exists kx.
Qed.
Lemma map_codec' {K A} `{Countable K} (P : A -> Prop) f g (gk : string -> option K) (h : K -> string) (m : gmap string A) (mz : gmap K A) :
  codec P f g -> m = list_to_map ((fun p => (h p.1, p.2)) <$> map_to_list mz) -> Inj (=) (=) h ->
  (forall z x, mz !! z = Some x -> P x /\ gk (sanitize (h z)) = Some z) ->
  exists v, map_json f m = Some v /\ jok v /\ map_of g gk (jsan v) = Some mz.
Proof.
  intros HC Hm HI Hz. destruct (decide (m = ∅)) as [E0|Hne].
  { exists JNull. unfold map_json. rewrite decide_True by done. split; [done|]. split; [constructor|]. cbn. f_equal.
    destruct (decide (mz = ∅)) as [->|Hmz]; [done|]. exfalso. apply map_choose in Hmz as (z & x & Hzx).
    assert (Hx : m !! h z = Some x); [|by rewrite E0 in Hx]. rewrite Hm. apply elem_of_list_to_map_1'.
    - intros y ([z' y'] & [= Hh <-] & Hin%elem_of_map_to_list)%elem_of_list_fmap. cbn in Hh. apply HI in Hh as ->. congruence.
    - apply elem_of_list_fmap. exists (z, x). split; [done|]. by apply elem_of_map_to_list. }
  assert (Hnd : NoDup (((fun p => (h p.1, p.2)) <$> map_to_list mz).*1)).
  { rewrite <- list_fmap_compose. change (fst ∘ (fun p => (h p.1, p.2))) with (h ∘ (@fst K A)). rewrite list_fmap_compose. apply NoDup_fmap; [done|]. apply NoDup_fst_map_to_list. }
  destruct (sorted_entries m) as (kx & HP & Hk). pose proof HP as HP2. rewrite Hm in HP2 at 1. rewrite map_to_list_to_map in HP2 by done.
  apply Permutation_map_inv in HP2 as (kz & E & HP2).
  assert (Hkz : forall z x, (z, x) ∈ kz -> mz !! z = Some x) by (intros z x Hin; apply elem_of_map_to_list; by rewrite HP2).
  assert (HV : exists vs, Forall2 (fun q v => f q.2 = Some v) kx vs /\ Forall jok vs /\
    Forall2 (fun p q => gk p.1 = Some q.1 /\ g p.2 = Some q.2) (map (fun p => (sanitize p.1, jsan p.2)) (zip (kx.*1) vs)) kz).
  { clear -HC Hz Hkz E. subst kx. induction kz as [|[z x] kz IH]; [exists []; cbn; split; [constructor|split; constructor]|]. destruct IH as (vs & V1 & V2 & V3); [intros; apply Hkz; by right|].
    destruct (Hz z x) as [HPx Hgz]; [apply Hkz; left|]. destruct (HC x HPx) as (v & F1 & F2 & F3). exists (v :: vs).
    split; [by constructor|]. split; [by constructor|]. cbn. constructor; [done|exact V3]. }
  destruct HV as (vs & V1 & V2 & V3). eexists. split; [by eapply map_write|]. split.
  - constructor. rewrite Forall_forall. intros [k v] Hin. apply elem_of_zip_r in Hin. cbn. rewrite Forall_forall in V2. by apply V2.
  - cbn [jsan map_of]. erewrite put_all by exact V3. f_equal. apply foldl_map. by rewrite HP2.
Qed.
Lemma map_codec {A} (P : A -> Prop) f g (m : gmap string A) : codec P f g -> (forall k x, m !! k = Some x -> P x) -> map_names m ->
  exists v, map_json f m = Some v /\ jok v /\ map_of g Some (jsan v) = Some m.
Proof.
  intros HC HP Hn. eapply (map_codec' P f g Some id m m); [done| |apply _|].
  - symmetry. etrans; [|apply list_to_map_to_list]. f_equal. rewrite <- (list_fmap_id (map_to_list m)) at 2. apply list_fmap_ext. by intros ? [k x].
  - intros k x Hk. split; [by eapply HP|]. cbn. f_equal. apply utf8_sanitize, Hn. by eexists.
Qed.
Lemma int_map_codec {A} (P : A -> Prop) f g : codec P f g ->
  codec (fun m : gmap Z A => forall z x, m !! z = Some x -> P x /\ is_int64 z) (int_map_json f) (map_of g parse_int).
Proof.
  intros HC m Hm. unfold int_map_json. eapply (map_codec' P f g parse_int pretty); [done|done|apply _|].
  intros z x Hz. destruct (Hm z x Hz) as [Hx Hi]. split; [done|]. rewrite utf8_sanitize by apply utf8_Z. by apply parse_pretty_Z.
Qed.
End codec.

(** ** The structures *)
Section structs.
Context {jrt : JsonRT} (HE : exact_numbers).
Definition stored (x : f64) : Prop := is_f64 x /\ finite x.
Definition codec_obj {A} (P : A -> Prop) (f : A -> option json) (g : json -> option A) : Prop :=
  forall x, P x -> exists l, f x = Some (JObj l) /\ jok (JObj l) /\ g (jsan (JObj l)) = Some x.
Lemma ptr_codec {A} (P : A -> Prop) f g : codec_obj P f g -> codec (fun o => forall x, o = Some x -> P x) (ptr_json f) (ptr_of g).
Proof.
  intros HC [x|] Hx; [|exists JNull; split; [done|split; [constructor|done]]]. destruct (HC x (Hx x eq_refl)) as (l & H1 & H2 & H3).
  exists (JObj l). cbn [ptr_json]. split; [done|]. split; [done|]. cbn [jsan ptr_of] in *. by rewrite H3.
Qed.
Lemma nums_codec (m : gmap string f64) : map_nums stored m -> map_names m ->
  exists v, map_json num_json m = Some v /\ jok v /\ map_of jnum_of Some (jsan v) = Some m.
Proof. intros H1 H2. apply (map_codec stored); [by apply num_codec|done|done]. Qed.
Lemma strs_codec : codec (Forall utf8) strs_json (list_of jstr_of).
Proof. apply list_codec, str_codec. Qed.
Lemma san_name k : utf8 k -> sanitize k = k.
Proof. apply utf8_sanitize. Qed.
Lemma jfield_hit k v l : jfield k ((k, v) :: l) = v.
Proof. cbn [jfield]. by rewrite decide_True. Qed.
Lemma jfield_miss k k' v l : k' <> k -> jfield k ((k', v) :: l) = jfield k l.
Proof. intros H. cbn [jfield]. by rewrite decide_False. Qed.
Ltac read_fields := cbn [jsan map fst snd];
  repeat match goal with |- context [sanitize ?s] => let r := eval vm_compute in (sanitize s) in change (sanitize s) with r end;
  cbn [fields_of mbind option_bind];
  repeat (rewrite jfield_hit || rewrite jfield_miss by done).
Lemma scaler_codec : codec_obj (fun s => scaler_names s /\ scaler_nums stored s) scaler_json scaler_of.
Proof.
  intros [a b] [[Na Nb] [Fa Fb]]. cbn [sc_shift sc_scale] in *.
  destruct (nums_codec a Fa Na) as (va & A1 & A2 & A3). destruct (nums_codec b Fb Nb) as (vb & B1 & B2 & B3).
  eexists. unfold scaler_json, obj_json. cbn [sc_shift sc_scale struct_json]. rewrite A1, B1. cbn. split; [reflexivity|]. split.
  - constructor. repeat (constructor; [done|]). constructor.
  - unfold scaler_of. read_fields. by rewrite A3, B3.
Qed.
Lemma imputer_codec : codec_obj (fun f => map_names f /\ map_nums stored f) imputer_json imputer_of.
Proof.
  intros a [Na Fa]. destruct (nums_codec a Fa Na) as (va & A1 & A2 & A3).
  eexists. unfold imputer_json, obj_json. cbn [struct_json]. rewrite A1. cbn. split; [reflexivity|]. split.
  - constructor. repeat (constructor; [done|]). constructor.
  - unfold imputer_of. read_fields. by rewrite A3.
Qed.
Lemma hash_codec : codec_obj (Forall utf8) hash_json hash_of.
Proof.
  intros a Na. destruct (strs_codec a Na) as (va & A1 & A2 & A3).
  eexists. unfold hash_json, obj_json. cbn [struct_json]. rewrite A1. cbn. split; [reflexivity|]. split.
  - constructor. repeat (constructor; [done|]). constructor.
  - unfold hash_of. read_fields. by rewrite A3.
Qed.
Lemma policy_back p : policy_of (JNum (policy_num p)) = Some p.
Proof. by destruct p. Qed.
Lemma policy_ok p : jok (JNum (policy_num p)).
Proof. constructor. by destruct p. Qed.
Lemma oh_opt_codec : codec_obj (fun _ => True) oh_opt_json oh_opt_of.
Proof.
  intros [m u k] _. eexists. split; [reflexivity|]. split.
  - constructor. constructor; [apply policy_ok|]. constructor; [apply policy_ok|]. constructor; [constructor|]. constructor.
  - unfold oh_opt_of. cbn [oh_missing oh_unknown oh_keep]. read_fields. by rewrite !policy_back.
Qed.
Lemma pair_codec : codec (fun p => utf8 p.1 /\ utf8 p.2) (fun p => strs_json [p.1; p.2]) pair_of.
Proof.
  intros [a b] [Ha Hb]. destruct (strs_codec [a; b]) as (v & H1 & H2 & H3); [by repeat constructor|]. exists v. split; [done|]. split; [done|].
  unfold pair_of. by rewrite H3.
Qed.
Lemma encoder_codec : codec_obj encoder_names encoder_json encoder_of.
Proof.
  intros [cats new m fb o] [N1 N2 N3 N4 N5 N6]. cbn [en_cats en_new en_map en_fb en_opt] in *.
  destruct (strs_codec cats) as (va & A1 & A2 & A3); [by apply Forall_forall|].
  destruct (strs_codec new) as (vb & B1 & B2 & B3); [by apply Forall_forall|].
  destruct (map_codec (fun m : gmap Z string => forall z x, m !! z = Some x -> utf8 x /\ is_int64 z) (int_map_json (fun s => Some (JStr s))) (map_of jstr_of parse_int) m) as (vc & C1 & C2 & C3);
    [apply int_map_codec, str_codec|intros c mz Hc z s Hz; destruct (N4 c mz z s Hc Hz); done|done|].
  destruct (map_codec _ _ _ fb pair_codec) as (vd & D1 & D2 & D3); [intros c [a b] Hc; by eapply N6|done|].
  destruct (oh_opt_codec o I) as (lo & O1 & O2 & O3).
  eexists. unfold encoder_json, obj_json. cbn [en_cats en_new en_map en_fb en_opt struct_json]. rewrite A1, B1, C1, D1, O1. cbn. split; [reflexivity|]. split.
  - constructor. repeat (constructor; [done|]). constructor.
  - unfold encoder_of. change (jsan (JObj lo)) with (id (jsan (JObj lo))) in O3. set (jo := JObj lo) in *. read_fields. unfold id in O3. by rewrite A3, B3, C3, D3, O3.
Qed.
Lemma auto_codec p : auto_names p -> auto_nums stored p ->
  exists l, auto_json p = Some (JObj l) /\ jok (JObj l) /\
    auto_of (jsan (JObj l)) = Some (Auto (ap_hash p) (ap_onehot p) (ap_imputer p) (ap_scaler p) (AutoOpt false false [])).
Proof.
  destruct p as [h e f s o]. intros [N1 N2 N3 N4] [F3 F4]. cbn [ap_hash ap_onehot ap_imputer ap_scaler] in *.
  destruct (ptr_codec _ _ _ hash_codec h) as (va & A1 & A2 & A3); [intros l Hl; apply Forall_forall; intros c Hc; by eapply N1|].
  destruct (ptr_codec _ _ _ encoder_codec e N2) as (vb & B1 & B2 & B3).
  destruct (ptr_codec _ _ _ imputer_codec f) as (vc & C1 & C2 & C3); [auto|].
  destruct (ptr_codec _ _ _ scaler_codec s) as (vd & D1 & D2 & D3); [auto|].
  eexists. unfold auto_json, obj_json. cbn [ap_hash ap_onehot ap_imputer ap_scaler struct_json]. rewrite A1, B1, C1, D1. cbn. split; [reflexivity|]. split.
  - constructor. repeat (constructor; [done|]). constructor.
  - unfold auto_of. read_fields. by rewrite A3, B3, C3, D3.
Qed.
Lemma linreg_codec : codec_obj (fun r => linreg_names r /\ linreg_nums stored r) linreg_json linreg_of.
Proof.
  intros [s w f] [[N1 N2] [F1 F2]]. cbn [lr_scaler lr_weights lr_features] in *.
  destruct (ptr_codec _ _ _ scaler_codec s) as (va & A1 & A2 & A3); [auto|].
  destruct (list_codec _ _ _ (num_codec HE) w F2) as (vb & B1 & B2 & B3).
  destruct (strs_codec f N2) as (vc & C1 & C2 & C3).
  eexists. unfold linreg_json, obj_json. cbn [lr_scaler lr_weights lr_features struct_json]. rewrite A1, B1, C1. cbn. split; [reflexivity|]. split.
  - constructor. repeat (constructor; [done|]). constructor.
  - unfold linreg_of. read_fields. by rewrite A3, B3, C3.
Qed.
Lemma reload {A} (P : A -> Prop) f g : codec_obj P f g -> forall x, P x -> (marshal f x ≫= unmarshal g) = Some x.
Proof.
  intros HC x Hx. destruct (HC x Hx) as (l & H1 & H2 & H3). unfold marshal, unmarshal. rewrite H1. cbn [fmap option_fmap option_map mbind option_bind].
  rewrite jparse_text by done. exact H3.
Qed.
End structs.

(** ** When Marshal fails *)
Section errors.
Context {jrt : JsonRT}.
Lemma mapM_is_Some {A B} (f : A -> option B) l : is_Some (mapM f l) <-> Forall (fun x => is_Some (f x)) l.
Proof. apply mapM_is_Some. Qed.
Lemma map_json_is_Some {A} (f : A -> option json) (m : gmap string A) : is_Some (map_json f m) <-> forall k x, m !! k = Some x -> is_Some (f x).
Proof.
  unfold map_json. destruct (decide (m = ∅)) as [->|Hne]; [split; [by intros _ k x|by eexists]|].
  rewrite fmap_is_Some, mapM_is_Some, Forall_forall. unfold sort_strings. split.
  - intros H k x Hk. destruct (H k) as [v Hv]; [rewrite merge_sort_Permutation, elem_of_elements; by apply elem_of_dom|]. rewrite Hk in Hv. cbn in Hv.
    destruct (f x); [by eexists|done].
  - intros H k. rewrite merge_sort_Permutation, elem_of_elements, elem_of_dom. intros [x Hx]. rewrite Hx. cbn. destruct (H k x Hx) as [v ->]. by eexists.
Qed.
Lemma num_json_is_Some x : is_Some (num_json x) <-> finite x.
Proof. unfold num_json. rewrite <- finite_spec. destruct (f64_isfinite x); split; intros H; try done; try by eexists. by destruct H. Qed.
Lemma nums_is_Some m : is_Some (map_json num_json m) <-> map_nums finite m.
Proof. rewrite map_json_is_Some. unfold map_nums. setoid_rewrite num_json_is_Some. done. Qed.
Lemma list_json_is_Some {A} (f : A -> option json) l : is_Some (list_json f l) <-> Forall (fun x => is_Some (f x)) l.
Proof. unfold list_json. destruct (decide (l = [])) as [->|]; [split; [done|by eexists]|]. by rewrite fmap_is_Some, mapM_is_Some. Qed.
Lemma strs_is_Some l : is_Some (strs_json l).
Proof. apply list_json_is_Some. rewrite Forall_forall. intros x _. by eexists. Qed.
Lemma obj_is_Some l : is_Some (obj_json l) <-> Forall (fun p => is_Some p.2) l.
Proof.
  unfold obj_json. rewrite fmap_is_Some. induction l as [|[k o] l IH]; [split; [done|by eexists]|]. cbn [struct_json]. rewrite Forall_cons, <- IH. cbn [snd].
  destruct o as [v|]; cbn [mbind option_bind]; [|split; [by intros [? ?]|by intros [[? ?] _]]].
  destruct (struct_json l); cbn [mbind option_bind]; split; intros H; try (split; by eexists); try (by eexists); destruct H as [? ?]; try done.
Qed.
Lemma ptr_is_Some {A} (f : A -> option json) o : is_Some (ptr_json f o) <-> forall x, o = Some x -> is_Some (f x).
Proof. destruct o as [x|]; cbn; [split; [by intros H y [= <-]|auto]|split; [done|by eexists]]. Qed.
Lemma hash_is_Some l : is_Some (hash_json l).
Proof. apply obj_is_Some. constructor; [apply strs_is_Some|constructor]. Qed.
Lemma encoder_is_Some e : is_Some (encoder_json e).
Proof.
  apply obj_is_Some. constructor; [apply strs_is_Some|]. constructor; [apply strs_is_Some|]. constructor; [|constructor; [|constructor; [|constructor]]]; cbn.
  - apply map_json_is_Some. intros c m _. apply map_json_is_Some. intros z s _. by eexists.
  - apply map_json_is_Some. intros c p _. apply strs_is_Some.
  - by eexists.
Qed.
Lemma scaler_is_Some s : is_Some (scaler_json s) <-> scaler_nums finite s.
Proof. unfold scaler_json. rewrite obj_is_Some, !Forall_cons. cbn [snd]. rewrite !nums_is_Some. unfold scaler_nums. split; [tauto|]. intros []; split; [done|split; [done|constructor]]. Qed.
Lemma imputer_is_Some f : is_Some (imputer_json f) <-> map_nums finite f.
Proof. unfold imputer_json. rewrite obj_is_Some, !Forall_cons. cbn [snd]. rewrite !nums_is_Some. split; [tauto|]. split; [done|constructor]. Qed.
Lemma auto_is_Some p : is_Some (auto_json p) <-> auto_nums finite p.
Proof.
  unfold auto_json. rewrite obj_is_Some, !Forall_cons. cbn [snd]. rewrite !ptr_is_Some. unfold auto_nums. setoid_rewrite scaler_is_Some. setoid_rewrite imputer_is_Some.
  split; [tauto|]. intros [H1 H2]. split; [intros l _; apply hash_is_Some|]. split; [intros l _; apply encoder_is_Some|]. split; [done|]. split; [done|constructor].
Qed.
Lemma linreg_is_Some r : is_Some (linreg_json r) <-> linreg_nums finite r.
Proof.
  unfold linreg_json. rewrite obj_is_Some, !Forall_cons. cbn [snd]. rewrite ptr_is_Some, list_json_is_Some. unfold linreg_nums. setoid_rewrite scaler_is_Some. setoid_rewrite num_json_is_Some.
  split; [tauto|]. intros [H1 H2]. split; [done|]. split; [done|]. split; [apply strs_is_Some|constructor].
Qed.
Lemma marshal_is_Some {A} (f : A -> option json) x : is_Some (marshal f x) <-> is_Some (f x).
Proof. unfold marshal. apply fmap_is_Some. Qed.
End errors.
