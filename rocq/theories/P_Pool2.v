(** Invariants of the worker pool. *)
From Verif Require Export P_Pool.

Lemma concat_at {W X} (f : W -> list X) (ws : list W) i w : ws !! i = Some w ->
  exists A B, concat (f <$> ws) = A ++ f w ++ B /\ forall w', concat (f <$> <[i := w']> ws) = A ++ f w' ++ B.
Proof.
  intros H. exists (concat (f <$> take i ws)), (concat (f <$> drop (S i) ws)). split.
  - rewrite <- (take_drop_middle ws i w H) at 1. by rewrite fmap_app, concat_app.
  - intros w'. rewrite insert_take_drop by (by eapply lookup_lt_Some). by rewrite fmap_app, concat_app.
Qed.
Lemma sum_list_insert xs i x x' : xs !! i = Some x -> sum_list (<[i := x']> xs) + x = sum_list xs + x'.
Proof.
  intros H. rewrite insert_take_drop by (by eapply lookup_lt_Some). rewrite <- (take_drop_middle xs i x H) at 3.
  rewrite !sum_list_with_app. simpl. lia.
Qed.

Ltac fperm := repeat (rewrite fmap_app || rewrite fmap_cons || rewrite fmap_nil); cbn [fst]; perm.

Section pool.
Context {R : Type} (deferred : bool) (n : nat) (prog : string -> job R).
Notation note := (string * R)%type.

Definition w_run (w : worker R) : list (string * job R) := match w_st w with WRun k j => [(k, j)] | _ => [] end.
Definition w_pend (w : worker R) : list note := w_def w ++ match w_st w with WSend k r => [(k, r)] | _ => [] end.
Definition running (s : pool R) : list (string * job R) := concat (w_run <$> p_ws s).
Definition pend (s : pool R) : list note := concat (w_pend <$> p_ws s).

Record cinv (keys : list string) (m : nat) (s : pool R) : Prop := {
  ci_part : concat (w_log <$> p_ws s) ++ p_q s ≡ₚ keys;
  ci_keys : ((p_got s).*1 ++ (p_chan s).*1 ++ (pend s).*1) ++ (running s).*1 ++ p_q s ≡ₚ keys;
  ci_exit : forall i w, p_ws s !! i = Some w -> w_st w = WExit -> p_q s = [];
  ci_ws : length (p_ws s) = m }.

Ltac at_w H := let A := fresh "A" in let B := fresh "B" in
  destruct (concat_at w_log _ _ _ H) as (? & ? & ?L1 & ?L2);
  destruct (concat_at w_run _ _ _ H) as (? & ? & ?R1 & ?R2);
  destruct (concat_at w_pend _ _ _ H) as (? & ? & ?P1 & ?P2).

Lemma cinv_init keys m h : cinv keys (Z.to_nat m) (pool_init keys m h).
Proof.
  assert (E : forall X (f : worker R -> list X), f (Worker WNext [] []) = [] ->
    forall k, concat (f <$> replicate k (Worker WNext [] [])) = []).
  { intros X f Hf k. induction k as [|k IH]; [done|]. rewrite replicate_S, fmap_cons. simpl. by rewrite Hf, IH. }
  split; unfold running, pend, pool_init; simpl.
  - by rewrite E.
  - by rewrite !E.
  - intros i w Hw Hx. apply elem_of_list_lookup_2, elem_of_replicate in Hw as [-> _]. done.
  - apply replicate_length.
Qed.

Lemma cinv_step keys m s s' : "" ∉ keys -> cinv keys m s -> step deferred n prog s s' -> cinv keys m s'.
Proof.
  intros He [C1 C2 C3 C4] Hs. unfold running, pend in *.
  destruct Hs as [s i dl lg k q Hc Hw Hq Hk|s i dl lg q Hc Hw Hq|s i dl lg Hc Hw Hq|s i dl lg k a f v Hc Hw Ha
    |s i dl lg k a v j Hc Hw Ha|s i dl lg k a f Hc Hw Ha|s i dl lg k a v j Hc Hw Ha|s i dl lg k Hc Hw
    |s i dl lg k r Hc Hw Hd|s i dl lg k r Hc Hw Hd|s i dl lg k r Hc Hw Hcl Hr|s i x dl lg Hc Hw Hcl Hr
    |s i k r dl lg Hc Hw Hcl|s i x dl lg Hc Hw Hcl|s x c Hc Hch Hcl];
  try (at_w Hw; rewrite L1 in C1; rewrite R1, P1 in C2; unfold w_run, w_pend in *; simpl in *;
       split; unfold running, pend; simpl; [rewrite L2|rewrite R2, P2|
         intros i' w' Hw' Hx; first [exact (C3 _ _ Hw' Hx)|
           destruct (decide (i' = i)) as [->|Hne];
             [rewrite list_lookup_insert in Hw' by (by eapply lookup_lt_Some); injection Hw' as <-; simpl in Hx; try discriminate Hx
             |rewrite list_lookup_insert_ne in Hw' by done; try (exact (C3 _ _ Hw' Hx))]]|
         by rewrite ?insert_length]; unfold w_run, w_pend; simpl in *; rewrite ?app_nil_r in *).
  (* next *)
  { rewrite <- C1, Hq. perm. }
  { rewrite <- C2, Hq. fperm. }
  { pose proof (C3 _ _ Hw' Hx). congruence. }
  (* empty key *)
  1-4: exfalso; apply He; rewrite <- C1, Hq; set_solver.
  all: try done.
  all: try (exact (C3 _ _ Hw eq_refl)).
  all: try (by rewrite <- C2; fperm).
  { split; simpl; [done| |done|done]. rewrite <- C2, Hch. unfold running, pend. simpl. fperm. }
Qed.

(** When everything has been received, everything has been done. *)
Lemma cinv_complete keys m s : length keys = n -> cinv keys m s -> closed n s ->
  p_q s = [] /\ running s = [] /\ pend s = [] /\ p_chan s = [] /\
  (p_got s).*1 ≡ₚ keys /\ concat (w_log <$> p_ws s) ≡ₚ keys.
Proof.
  intros Hn [C1 C2 C3 C4] Hc. unfold closed in Hc. pose proof (Permutation_length C2) as Hl.
  rewrite !app_length, !fmap_length in Hl.
  assert (Hx : length (p_q s) = 0 /\ length (running s) = 0 /\ length (pend s) = 0 /\ length (p_chan s) = 0) by lia.
  destruct Hx as (X1%nil_length_inv & X2%nil_length_inv & X3%nil_length_inv & X4%nil_length_inv).
  rewrite X1, X2, X3, X4 in C2. rewrite X1 in C1. simpl in C2. rewrite !app_nil_r in C2. rewrite app_nil_r in C1. done.
Qed.
Lemma pend_at s i k r dl lg : p_ws s !! i = Some (Worker (WSend k r) dl lg) -> pend s <> [].
Proof.
  intros Hw E. destruct (concat_at w_pend _ _ _ Hw) as (A & B & P & _). unfold pend in E. rewrite E in P.
  apply (f_equal length) in P. unfold w_pend in P. simpl in P. rewrite !app_length in P. simpl in P. lia.
Qed.
Lemma pend_exit s i x dl lg : p_ws s !! i = Some (Worker WExit (x :: dl) lg) -> pend s <> [].
Proof.
  intros Hw E. destruct (concat_at w_pend _ _ _ Hw) as (A & B & P & _). unfold pend in E. rewrite E in P.
  apply (f_equal length) in P. unfold w_pend in P. simpl in P. rewrite !app_length in P. simpl in P. lia.
Qed.

(** Some goroutine can always proceed. *)
Lemma cinv_progress keys m s : length keys = n -> "" ∉ keys -> 1 <= m -> cinv keys m s ->
  p_crash s = false -> ~ closed n s -> exists s', step deferred n prog s s'.
Proof.
  intros Hn He Hm C Hc Hcl. destruct (p_chan s) as [|x c] eqn:Hch.
  2:{ eexists. by eapply s_collect. }
  pose proof C as [C1 C2 C3 C4].
  destruct (decide (Forall (fun w => match w with Worker WExit [] _ => true | _ => false end = true) (p_ws s))) as [Hall|Hex].
  - exfalso. apply Hcl. unfold closed.
    assert (Hq : p_q s = []).
    { destruct (p_ws s) as [|w ws] eqn:Ews; [simpl in C4; lia|]. apply Forall_cons in Hall as [Hw _].
      destruct w as [[] [] lg]; try done. by apply (C3 0 (Worker WExit [] lg)). }
    assert (Hr : forall X (f : worker R -> list X), (forall lg, f (Worker WExit [] lg) = []) -> concat (f <$> p_ws s) = []).
    { intros X f Hf. clear -Hall Hf. induction Hall as [|w ws Hw Hall IH]; [done|]. rewrite fmap_cons. simpl. rewrite IH.
      destruct w as [[] [] lg]; try done. by rewrite Hf. }
    apply Permutation_length in C2. rewrite Hch, Hq in C2. unfold running, pend in C2. rewrite !Hr in C2 by done.
    rewrite !app_length, !fmap_length in C2. simpl in C2. lia.
  - apply not_Forall_Exists in Hex; [|intros ?; apply _]. apply Exists_exists in Hex as (w & Hw & Ha).
    apply elem_of_list_lookup in Hw as (i & Hw). unfold closed in *.
    destruct w as [[|k j|k r|] dl lg].
    + destruct (p_q s) as [|k q] eqn:Hq; [eexists; by eapply s_closed|].
      destruct (decide (k = "")) as [->|Hk]; [eexists; by eapply s_empty|eexists; by eapply s_next].
    + destruct j as [r| |a f|a v j].
      * destruct deferred eqn:Hd; eexists; [by eapply s_ret_def|by eapply s_ret_now].
      * eexists; by eapply s_panic.
      * destruct (mem_get (p_heap s) a) as [v|] eqn:Ea; eexists; [by eapply s_rd|by eapply s_rd_fault].
      * destruct (mem_get (p_heap s) a) as [w|] eqn:Ea; eexists; [by eapply s_wr|by eapply s_wr_fault].
    + eexists. eapply s_send; [done|done|done|]. rewrite Hch. simpl. lia.
    + destruct dl as [|x dl]; [exfalso; by apply Ha|]. eexists. eapply s_send_exit; [done|done|done|]. rewrite Hch. simpl. lia.
Qed.

(** ** Termination *)
Inductive jdepth : nat -> job R -> Prop :=
| jd_ret m r : jdepth m (JRet r)
| jd_panic m : jdepth m JPanic
| jd_rd m a f : (forall v, jdepth m (f v)) -> jdepth (S m) (JRd a f)
| jd_wr m a v j : jdepth m j -> jdepth (S m) (JWr a v j).

Definition wmeas (w : worker R) (x : nat) : Prop :=
  match w_st w with
  | WNext => x = 1 + 2 * length (w_def w)
  | WRun _ j => exists d, jdepth d j /\ x = 4 + d + 2 * length (w_def w)
  | WSend _ _ => x = 3 + 2 * length (w_def w)
  | WExit => x = 2 * length (w_def w)
  end.
Definition meas (D : nat) (s : pool R) (t : nat) : Prop := exists xs, Forall2 wmeas (p_ws s) xs /\
  t = (D + 4) * length (p_q s) + sum_list xs + length (p_chan s) + (if p_crash s then 0 else 1).

Lemma meas_at s i w xs : Forall2 wmeas (p_ws s) xs -> p_ws s !! i = Some w ->
  exists x, xs !! i = Some x /\ wmeas w x /\
    forall w' x', wmeas w' x' -> Forall2 wmeas (<[i := w']> (p_ws s)) (<[i := x']> xs) /\
      sum_list (<[i := x']> xs) + x = sum_list xs + x'.
Proof.
  intros H Hw. destruct (Forall2_lookup_l _ _ _ _ _ H Hw) as (x & Hx & Hm). exists x. do 2 (split; [done|]).
  intros w' x' Hm'. split; [by apply Forall2_insert|]. by apply sum_list_insert.
Qed.
Lemma meas_step D s s' t : (forall k, k ∈ p_q s -> jdepth D (prog k)) -> meas D s t -> step deferred n prog s s' ->
  exists t', t' < t /\ meas D s' t'.
Proof.
  intros HD (xs & Hxs & ->) Hs. 
  destruct Hs as [s i dl lg k q Hc Hw Hq Hk|s i dl lg q Hc Hw Hq|s i dl lg Hc Hw Hq|s i dl lg k a f v Hc Hw Ha
    |s i dl lg k a v j Hc Hw Ha|s i dl lg k a f Hc Hw Ha|s i dl lg k a v j Hc Hw Ha|s i dl lg k Hc Hw
    |s i dl lg k r Hc Hw Hd|s i dl lg k r Hc Hw Hd|s i dl lg k r Hc Hw Hcl Hr|s i x dl lg Hc Hw Hcl Hr
    |s i k r dl lg Hc Hw Hcl|s i x dl lg Hc Hw Hcl|s x c Hc Hch Hcl]; rewrite Hc;
  try (by eexists; split; [|exists xs; split; [exact Hxs|reflexivity]]; simpl; lia);
  try (destruct (meas_at _ _ _ _ Hxs Hw) as (y & Hy & Hm & Hnew); unfold wmeas in Hm; simpl in Hm).
  - destruct (Hnew (Worker (WRun k (prog k)) dl (lg ++ [k])) (4 + D + 2 * length dl)) as [N1 N2].
    { exists D. split; [|done]. apply HD. rewrite Hq. set_solver. }
    eexists. split; [|exists (<[i:=4 + D + 2 * length dl]> xs); split; [exact N1|reflexivity]]. cbn [p_q p_chan p_crash p_ws set_w length]. rewrite Hq. cbn [length]. rewrite ?Nat.mul_succ_r. lia.
  - destruct (Hnew (Worker WExit dl lg) (2 * length dl)) as [N1 N2]; [done|].
    eexists. split; [|exists (<[i:=2 * length dl]> xs); split; [exact N1|reflexivity]]. cbn [p_q p_chan p_crash p_ws set_w length]. rewrite Hq. cbn [length]. rewrite ?Nat.mul_succ_r. lia.
  - destruct (Hnew (Worker WExit dl lg) (2 * length dl)) as [N1 N2]; [done|].
    eexists. split; [|exists (<[i:=2 * length dl]> xs); split; [exact N1|reflexivity]]. cbn [p_q p_chan p_crash p_ws set_w length]. rewrite Hc. lia.
  - destruct Hm as (d & Hj & ->). inversion Hj as [| |m' a' f' Hj'|]; subst.
    destruct (Hnew (Worker (WRun k (f v)) dl lg) (4 + m' + 2 * length dl)) as [N1 N2]; [by exists m'|].
    eexists. split; [|exists (<[i:=4 + m' + 2 * length dl]> xs); split; [exact N1|reflexivity]]. cbn [p_q p_chan p_crash p_ws set_w length]. rewrite Hc. lia.
  - destruct Hm as (d & Hj & ->). inversion Hj as [| | |m' a' v' j' Hj']; subst.
    destruct (Hnew (Worker (WRun k j) dl lg) (4 + m' + 2 * length dl)) as [N1 N2]; [by exists m'|].
    eexists. split; [|exists (<[i:=4 + m' + 2 * length dl]> xs); split; [exact N1|reflexivity]]. cbn [p_q p_chan p_crash p_ws set_w length]. lia.
  - destruct Hm as (d & Hj & ->).
    destruct (Hnew (Worker (WSend k r) dl lg) (3 + 2 * length dl)) as [N1 N2]; [done|].
    eexists. split; [|exists (<[i:=3 + 2 * length dl]> xs); split; [exact N1|reflexivity]]. cbn [p_q p_chan p_crash p_ws set_w length]. rewrite Hc. lia.
  - destruct Hm as (d & Hj & ->).
    destruct (Hnew (Worker WNext ((k, r) :: dl) lg) (1 + 2 * length ((k, r) :: dl))) as [N1 N2]; [done|].
    eexists. split; [|exists (<[i:=1 + 2 * length ((k, r) :: dl)]> xs); split; [exact N1|reflexivity]].
    cbn [length] in N2. cbn [p_q p_chan p_crash p_ws set_w length]. rewrite Hc. lia.
  - destruct (Hnew (Worker WNext dl lg) (1 + 2 * length dl)) as [N1 N2]; [done|].
    eexists. split; [|exists (<[i:=1 + 2 * length dl]> xs); split; [exact N1|reflexivity]]. cbn [p_q p_chan p_crash p_ws set_w length]. rewrite app_length. cbn [length]. lia.
  - destruct (Hnew (Worker WExit dl lg) (2 * length dl)) as [N1 N2]; [done|].
    eexists. split; [|exists (<[i:=2 * length dl]> xs); split; [exact N1|reflexivity]]. cbn [p_q p_chan p_crash p_ws set_w length]. rewrite app_length. cbn [length]. lia.
  - eexists. split; [|exists xs; split; [exact Hxs|reflexivity]]. cbn [p_q p_chan p_crash p_ws set_w length]. rewrite Hch. cbn [p_q p_chan p_crash p_ws set_w length]. lia.
Qed.
Lemma meas_init D keys m h : meas D (pool_init keys m h) ((D + 4) * length keys + Z.to_nat m + 1).
Proof.
  exists (replicate (Z.to_nat m) 1). split.
  - simpl. induction (Z.to_nat m) as [|k IH]; simpl; constructor; [done|done].
  - simpl. assert (E : forall k, sum_list (replicate k 1) = k) by (intros k; induction k; simpl; congruence). rewrite E. lia.
Qed.
End pool.
