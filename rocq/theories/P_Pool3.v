(** The memory after a run of the pool: the same for all schedules. *)
From Verif Require Export P_Pool2.

Lemma seq_all_mid {R} (A B : list (string * job R)) k j h ns hf : seq_all (A ++ (k, j) :: B) h = Some (ns, hf) ->
  exists nA h1 r h2 nB, seq_all A h = Some (nA, h1) /\ run_job j h1 = Some (r, h2) /\
    seq_all B h2 = Some (nB, hf) /\ ns = nA ++ (k, r) :: nB.
Proof.
  rewrite seq_all_app. destruct (seq_all A h) as [[nA h1]|]; [|done]. cbn [seq_all].
  destruct (run_job j h1) as [[r h2]|] eqn:E1; [|done]. destruct (seq_all B h2) as [[nB h3]|] eqn:E2; [|done].
  intros E. injection E as <- <-. exists nA, h1, r, h2, nB. done.
Qed.
Lemma seq_all_mid_intro {R} (A B : list (string * job R)) k j h nA h1 r h2 nB hf : seq_all A h = Some (nA, h1) ->
  run_job j h1 = Some (r, h2) -> seq_all B h2 = Some (nB, hf) ->
  seq_all (A ++ (k, j) :: B) h = Some (nA ++ (k, r) :: nB, hf).
Proof. intros E1 E2 E3. rewrite seq_all_app, E1. cbn [seq_all]. by rewrite E2, E3. Qed.

Section mem.
Context {R : Type} (deferred : bool) (n : nat) (prog : string -> job R) (rs ws : string -> addr -> Prop).
Notation note := (string * R)%type.
Notation jobs q := ((fun k => (k, prog k)) <$> q).

Record minv (rs0 : list note) (hf : heap) (s : pool R) : Prop := {
  mi_crash : p_crash s = false;
  mi_run : exists ns, seq_all (running s ++ jobs (p_q s)) (p_heap s) = Some (ns, hf) /\
             p_got s ++ p_chan s ++ pend s ++ ns ≡ₚ rs0;
  mi_fp : fps rs ws (running s ++ jobs (p_q s)) }.

Lemma jobs_keys q : (jobs q).*1 = q.
Proof. rewrite <- list_fmap_compose. apply list_fmap_id. Qed.

Lemma fps_mid A k (j : job R) B : fps rs ws (A ++ (k, j) :: B) ->
  fps rs ws A /\ fp (rs k) (ws k) j /\ fps rs ws B.
Proof. unfold fps. rewrite Forall_app, Forall_cons. simpl. tauto. Qed.
Lemma fps_mid_intro A k (j : job R) B : fps rs ws A -> fp (rs k) (ws k) j -> fps rs ws B -> fps rs ws (A ++ (k, j) :: B).
Proof. unfold fps. rewrite Forall_app, Forall_cons. simpl. tauto. Qed.

Lemma other_keys (A B : list (string * job R)) k j : NoDup (A ++ (k, j) :: B).*1 -> Forall (fun p => p.1 <> k) A.
Proof.
  rewrite fmap_app, fmap_cons. intros (_ & Hd & _)%NoDup_app. apply Forall_forall. intros p Hp E.
  eapply (Hd p.1); [by apply elem_of_list_fmap_1|]. rewrite E. apply elem_of_cons. by left.
Qed.

Context (Hni : no_interference rs ws).
Lemma minv_step keys m rs0 hf s s' : length keys = n -> NoDup keys -> "" ∉ keys ->
  cinv keys m s -> minv rs0 hf s -> step deferred n prog s s' -> minv rs0 hf s'.
Proof.
  intros Hn Hnd He C [Hc0 (ns & Hseq & Hp) Hfp] Hs.
  assert (HN : NoDup (running s ++ jobs (p_q s)).*1).
  { rewrite fmap_app, jobs_keys. destruct C as [_ C2 _ _]. rewrite <- C2 in Hnd. by apply NoDup_app in Hnd as (_ & _ & ?). }
  assert (Hcl : forall i w, p_ws s !! i = Some w -> closed n s -> w_pend w = []).
  { intros i w Hw Hcl. destruct (cinv_complete n keys m s Hn C Hcl) as (_ & _ & X & _).
    destruct (concat_at w_pend _ _ _ Hw) as (A & B & P & _). unfold pend in X. rewrite X in P.
    symmetry in P. by apply app_nil in P as [_ [? _]%app_nil]. }
  unfold running, pend in *.
  destruct Hs as [s i dl lg k q Hc Hw Hq Hk|s i dl lg q Hc Hw Hq|s i dl lg Hc Hw Hq|s i dl lg k a f v Hc Hw Ha
    |s i dl lg k a v j Hc Hw Ha|s i dl lg k a f Hc Hw Ha|s i dl lg k a v j Hc Hw Ha|s i dl lg k Hc Hw
    |s i dl lg k r Hc Hw Hd|s i dl lg k r Hc Hw Hd|s i dl lg k r Hc Hw Hx Hr|s i x dl lg Hc Hw Hx Hr
    |s i k r dl lg Hc Hw Hx|s i x dl lg Hc Hw Hx|s x c Hc Hch Hx];
  try (destruct (concat_at w_run _ _ _ Hw) as (A & B & R1 & R2);
       destruct (concat_at w_pend _ _ _ Hw) as (PA & PB & P1 & P2);
       rewrite R1 in *; rewrite P1 in *;
       cbn [w_run w_pend w_st w_def app] in Hseq, Hp, Hfp, HN;
       rewrite <- ?app_assoc in Hseq; rewrite <- ?app_assoc in Hfp; rewrite <- ?app_assoc in HN; cbn [app] in Hseq, Hfp, HN).
  - (* a key moves from the queue to a worker *)
    rewrite Hq in *. rewrite fmap_cons in *.
    destruct (seq_all_perm rs ws (A ++ B ++ (k, prog k) :: jobs q) (A ++ (k, prog k) :: B ++ jobs q) Hni) with (h := p_heap s) (ns := ns) (h' := hf)
      as (ns' & E' & Hp'); [perm|done|done|done|].
    split; unfold running, pend; cbn [set_w p_ws p_q p_heap p_crash p_chan p_got]; [done|..]; rewrite ?R2, ?P2; cbn [w_run w_pend w_st w_def app].
    + exists ns'. split; [by rewrite <- app_assoc|]. rewrite Hp'. done.
    + rewrite <- app_assoc. cbn [app]. unfold fps in *.
      assert (P : A ++ B ++ (k, prog k) :: jobs q ≡ₚ A ++ (k, prog k) :: B ++ jobs q) by perm. by rewrite <- P.
  - exfalso. apply He. destruct C as [C1 _ _ _]. rewrite <- C1, Hq. set_solver.
  - split; unfold running, pend; cbn [set_w p_ws p_q p_heap p_crash p_chan p_got]; [done|..]; rewrite ?R2, ?P2; cbn [w_run w_pend w_st w_def app]; rewrite <- ?app_assoc.
    + exists ns. split; [done|]. rewrite <- Hp. rewrite ?app_nil_r. perm.
    + done.
  - (* read *)
    destruct (seq_all_mid _ _ _ _ _ _ _ Hseq) as (nA & h1 & r & h2 & nB & E1 & E2 & E3 & ->).
    destruct (fps_mid _ _ _ _ Hfp) as (F1 & F2 & F3). inversion F2 as [| |? ? Ra Fv|]; subst.
    assert (Hg : mem_get h1 a = mem_get (p_heap s) a).
    { eapply seq_all_get; [exact F1| |exact E1]. eapply Forall_impl; [by eapply other_keys|]. intros p Hne Hw'. cbv beta in Hne.
      by destruct (proj1 (Hni p.1 k Hne a) Hw'). }
    cbn [run_job] in E2. rewrite Hg, Ha in E2.
    split; unfold running, pend; cbn [set_w p_ws p_q p_heap p_crash p_chan p_got]; [done|..]; rewrite ?R2, ?P2; cbn [w_run w_pend w_st w_def app]; rewrite <- ?app_assoc; cbn [app].
    + exists (nA ++ (k, r) :: nB). split; [by eapply seq_all_mid_intro|]. rewrite <- Hp. rewrite ?app_nil_r. perm.
    + by apply fps_mid_intro.
  - (* write *)
    destruct (seq_all_mid _ _ _ _ _ _ _ Hseq) as (nA & h1 & r & h2 & nB & E1 & E2 & E3 & ->).
    destruct (fps_mid _ _ _ _ Hfp) as (F1 & F2 & F3). inversion F2 as [| | |? ? ? Wa Fj]; subst.
    assert (Hg : seq_all A (mem_set (p_heap s) a v) = Some (nA, mem_set h1 a v)).
    { eapply seq_all_set; [exact F1| |exact E1]. eapply Forall_impl; [by eapply other_keys|]. intros p Hne. cbv beta in Hne.
      exact (proj2 (Hni p.1 k Hne a) Wa). }
    cbn [run_job] in E2. destruct (mem_get h1 a) as [u|]; [|done].
    split; unfold running, pend; cbn [set_w p_ws p_q p_heap p_crash p_chan p_got]; [done|..]; rewrite ?R2, ?P2; cbn [w_run w_pend w_st w_def app]; rewrite <- ?app_assoc; cbn [app].
    + exists (nA ++ (k, r) :: nB). split; [by eapply seq_all_mid_intro|]. rewrite <- Hp. rewrite ?app_nil_r. perm.
    + by apply fps_mid_intro.
  - destruct (seq_all_mid _ _ _ _ _ _ _ Hseq) as (nA & h1 & r & h2 & nB & E1 & E2 & E3 & ->).
    cbn [run_job] in E2. destruct (mem_get h1 a) as [u|] eqn:Eu; [|done].
    assert (is_Some (mem_get (p_heap s) a)) as [? ?]; [|congruence]. apply (seq_all_dom _ _ _ _ E1). by eexists.
  - destruct (seq_all_mid _ _ _ _ _ _ _ Hseq) as (nA & h1 & r & h2 & nB & E1 & E2 & E3 & ->).
    cbn [run_job] in E2. destruct (mem_get h1 a) as [u|] eqn:Eu; [|done].
    assert (is_Some (mem_get (p_heap s) a)) as [? ?]; [|congruence]. apply (seq_all_dom _ _ _ _ E1). by eexists.
  - destruct (seq_all_mid _ _ _ _ _ _ _ Hseq) as (nA & h1 & r & h2 & nB & E1 & E2 & E3 & ->). done.
  - (* return *)
    destruct (seq_all_mid _ _ _ _ _ _ _ Hseq) as (nA & h1 & r' & h2 & nB & E1 & E2 & E3 & ->).
    destruct (fps_mid _ _ _ _ Hfp) as (F1 & F2 & F3). cbn [run_job] in E2. injection E2 as <- <-.
    split; unfold running, pend; cbn [set_w p_ws p_q p_heap p_crash p_chan p_got]; [done|..]; rewrite ?R2, ?P2; cbn [w_run w_pend w_st w_def app]; rewrite <- ?app_assoc; cbn [app].
    + exists (nA ++ nB). split; [by rewrite seq_all_app, E1, E3|]. rewrite <- Hp. cbn [app]. rewrite ?app_nil_r. perm.
    + apply Forall_app. done.
  - destruct (seq_all_mid _ _ _ _ _ _ _ Hseq) as (nA & h1 & r' & h2 & nB & E1 & E2 & E3 & ->).
    destruct (fps_mid _ _ _ _ Hfp) as (F1 & F2 & F3). cbn [run_job] in E2. injection E2 as <- <-.
    split; unfold running, pend; cbn [set_w p_ws p_q p_heap p_crash p_chan p_got]; [done|..]; rewrite ?R2, ?P2; cbn [w_run w_pend w_st w_def app]; rewrite <- ?app_assoc; cbn [app].
    + exists (nA ++ nB). split; [by rewrite seq_all_app, E1, E3|]. rewrite <- Hp. cbn [app]. rewrite ?app_nil_r. perm.
    + apply Forall_app. done.
  - split; unfold running, pend; cbn [set_w p_ws p_q p_heap p_crash p_chan p_got]; [done|..]; rewrite ?R2, ?P2; cbn [w_run w_pend w_st w_def app]; rewrite <- ?app_assoc; cbn [app].
    + exists ns. split; [done|]. rewrite <- Hp. rewrite ?app_nil_r. perm.
    + done.
  - split; unfold running, pend; cbn [set_w p_ws p_q p_heap p_crash p_chan p_got]; [done|..]; rewrite ?R2, ?P2; cbn [w_run w_pend w_st w_def app]; rewrite <- ?app_assoc; cbn [app].
    + exists ns. split; [done|]. rewrite <- Hp. rewrite ?app_nil_r. perm.
    + done.
  - specialize (Hcl _ _ Hw Hx). unfold w_pend in Hcl. simpl in Hcl. by apply app_nil in Hcl as [_ ?].
  - specialize (Hcl _ _ Hw Hx). done.
  - split; unfold running, pend; cbn [set_w p_ws p_q p_heap p_crash p_chan p_got]; [done| |done].
    exists ns. split; [done|]. rewrite <- Hp, Hch. perm.
Qed.

Lemma minv_init keys m h rs0 hf : seq_all (jobs keys) h = Some (rs0, hf) -> fps rs ws (jobs keys) ->
  minv rs0 hf (pool_init keys m h).
Proof.
  assert (E : forall X (f : worker R -> list X), f (Worker WNext [] []) = [] ->
    forall k, concat (f <$> replicate k (Worker WNext [] [])) = []).
  { intros X f Hf k. induction k as [|k IH]; [done|]. rewrite replicate_S, fmap_cons. simpl. by rewrite Hf, IH. }
  intros Hs Hf. split; unfold running, pend, pool_init; simpl; rewrite ?E; [done|by exists rs0|done..].
Qed.
End mem.
