(** Executions of the pool; a key that is the empty string. *)
From Verif Require Export P_Pool3.

Section runs.
Context {R : Type} (deferred : bool) (n : nat) (prog : string -> job R).
Notation note := (string * R)%type.

Lemma steps_cinv keys w h m s : "" ∉ keys -> steps deferred n prog m (pool_init keys w h) s -> cinv keys (Z.to_nat w) s.
Proof.
  intros He. remember (pool_init keys w h) as s0 eqn:E0. induction 1 as [s|m s1 s2 s3 H IH Hs]; [rewrite E0|specialize (IH E0)].
  - apply cinv_init.
  - eapply cinv_step; [done|exact IH|done].
Qed.
Lemma steps_minv rs ws keys w h m s rs0 hf : no_interference rs ws -> length keys = n -> NoDup keys -> "" ∉ keys ->
  seq_all ((fun k => (k, prog k)) <$> keys) h = Some (rs0, hf) -> fps rs ws ((fun k => (k, prog k)) <$> keys) ->
  steps deferred n prog m (pool_init keys w h) s -> minv prog rs ws rs0 hf s.
Proof.
  intros Hni Hn Hnd He Hs0 Hf H. remember (pool_init keys w h) as s0 eqn:E0.
  induction H as [s|m s1 s2 s3 H IH Hs]; [rewrite E0|specialize (IH E0)].
  - by apply minv_init.
  - eapply minv_step; [done| |done|done| |exact IH|done]; [done|]. rewrite E0 in H. by eapply steps_cinv.
Qed.
Lemma steps_meas D keys w h m s : (forall k, k ∈ keys -> jdepth D (prog k)) ->
  steps deferred n prog m (pool_init keys w h) s -> exists t, meas D s t /\ m + t <= (D + 4) * length keys + Z.to_nat w + 1.
Proof.
  intros HD H. remember (pool_init keys w h) as s0 eqn:E0.
  assert (X : (exists t, meas D s t /\ m + t <= (D + 4) * length keys + Z.to_nat w + 1) /\ (forall k, k ∈ p_q s -> k ∈ keys)); [|by destruct X].
  induction H as [s|m s1 s2 s3 H IH Hs]; [rewrite E0|specialize (IH E0)].
  - split; [eexists; split; [apply meas_init|lia]|done].
  - destruct IH as [(t & Ht & Hle) Hq]. split.
    + destruct (meas_step deferred n prog D s2 s3 t) as (t' & Hlt & Ht'); [by auto|done|done|]. exists t'. split; [done|lia].
    + destruct Hs; simpl in *; try done; intros k' Hk'; apply Hq;
      match goal with E : p_q _ = _ :: _ |- _ => rewrite E; by apply elem_of_cons; right | _ => done end.
Qed.

(** [lost]: the keys for which no notification will come. *)
Definition einv (keys : list string) (s : pool R) : Prop := exists lost,
  ((p_got s).*1 ++ (p_chan s).*1 ++ (pend s).*1) ++ (running s).*1 ++ p_q s ++ lost ≡ₚ keys /\
  Forall (fun k => k <> "") (((p_got s).*1 ++ (p_chan s).*1 ++ (pend s).*1) ++ (running s).*1).

Lemma einv_step keys s s' : einv keys s -> step deferred n prog s s' -> einv keys s'.
Proof.
  intros (lost & C2 & C3) Hs. unfold einv, running, pend in *.
  destruct Hs as [s i dl lg k q Hc Hw Hq Hk|s i dl lg q Hc Hw Hq|s i dl lg Hc Hw Hq|s i dl lg k a f v Hc Hw Ha
    |s i dl lg k a v j Hc Hw Ha|s i dl lg k a f Hc Hw Ha|s i dl lg k a v j Hc Hw Ha|s i dl lg k Hc Hw
    |s i dl lg k r Hc Hw Hd|s i dl lg k r Hc Hw Hd|s i dl lg k r Hc Hw Hx Hr|s i x dl lg Hc Hw Hx Hr
    |s i k r dl lg Hc Hw Hx|s i x dl lg Hc Hw Hx|s x c Hc Hch Hx];
  try (by exists lost);
  try (destruct (concat_at w_run _ _ _ Hw) as (A & B & R1 & R2);
       destruct (concat_at w_pend _ _ _ Hw) as (PA & PB & P1 & P2);
       rewrite R1 in *; rewrite P1 in *; cbn [set_w p_ws p_q p_heap p_crash p_chan p_got]; rewrite R2, P2;
       unfold w_run, w_pend in *;
       cbn [w_st w_def app] in *).
  2:{ exists ("" :: lost). rewrite Hq in C2. split; [rewrite <- C2; fperm|done]. }
  2:{ exists lost. rewrite Hq in C2 |- *. done. }
  all: exists lost; rewrite ?Hq, ?Hch in C2; rewrite ?Hch in C3.
  all: cbn [p_got p_chan p_q p_ws].
  all: try (split; [rewrite <- C2; fperm|]).
  all: try done.
  all: repeat (rewrite ?fmap_app, ?fmap_cons, ?fmap_nil in C3; rewrite ?Forall_app, ?Forall_cons, ?Forall_nil in C3);
       repeat (rewrite ?fmap_app, ?fmap_cons, ?fmap_nil; rewrite ?Forall_app, ?Forall_cons, ?Forall_nil);
       cbn [fst] in *; rewrite ?app_nil_r, ?fmap_app, ?Forall_app; tauto.
Qed.
Lemma steps_einv keys w h m s : steps deferred n prog m (pool_init keys w h) s -> einv keys s.
Proof.
  remember (pool_init keys w h) as s0 eqn:E0. induction 1 as [s|m s1 s2 s3 H IH Hs]; [rewrite E0|specialize (IH E0)].
  - exists []. assert (E : forall X (f : worker R -> list X), f (Worker WNext [] []) = [] ->
      forall k, concat (f <$> replicate k (Worker WNext [] [])) = []).
    { intros X f Hf k. induction k as [|k IH]; [done|]. rewrite replicate_S, fmap_cons. simpl. by rewrite Hf, IH. }
    unfold running, pend, pool_init. simpl. rewrite !E by done. simpl. rewrite app_nil_r. split; [done|constructor].
  - eapply einv_step; [exact IH|done].
Qed.
Lemma einv_open keys s : length keys = n -> "" ∈ keys -> einv keys s -> ~ closed n s.
Proof.
  intros Hn He (lost & C2 & C3) Hc. unfold closed in Hc. pose proof (Permutation_length C2) as Hl.
  rewrite !app_length, !fmap_length in Hl.
  assert (E1 : p_q s = []) by (apply nil_length_inv; lia). assert (E2 : lost = []) by (apply nil_length_inv; lia).
  rewrite E1, E2 in C2. rewrite ?app_nil_r in C2. rewrite <- C2 in He. rewrite Forall_forall in C3. by apply (C3 "").
Qed.
End runs.

(** ** create_queue *)
Lemma shuffle_keys (rnd : nat -> nat) (keys : list string) : (forall l, shuffle rnd l ≡ₚ l) ->
  omap (fun i => keys !! i) (shuffle rnd (seq 0 (length keys))) ≡ₚ keys.
Proof.
  intros Hp. rewrite (Hp (seq 0 (length keys))).
  assert (E : forall n, n <= length keys -> omap (fun i => keys !! i) (seq 0 n) = take n keys).
  { intros n. induction n as [|n IH]; intros Hn; [by rewrite take_0|]. rewrite seq_S, omap_app, IH by lia. simpl.
    destruct (lookup_lt_is_Some_2 keys n) as [x Hx]; [lia|]. rewrite Hx. by rewrite (take_S_r keys n x). }
  rewrite E by done. by rewrite firstn_all.
Qed.
