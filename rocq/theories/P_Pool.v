(** The worker pool: nothing is lost, nothing blocks, nothing races. *)
From Verif Require Export M_Pool.

(** ** Permutations of concatenations *)
Lemma pm_here {A} (a z : list A) : a ++ z ≡ₚ a ++ z.
Proof. done. Qed.
Lemma pm_next {A} (a b z z' : list A) : z ≡ₚ a ++ z' -> b ++ z ≡ₚ a ++ b ++ z'.
Proof. intros ->. apply Permutation_app_swap_app. Qed.
Lemma pm_step {A} (a x y y' : list A) : y ≡ₚ a ++ y' -> x ≡ₚ y' -> a ++ x ≡ₚ y.
Proof. by intros -> ->. Qed.
Lemma pm_cons {A} (x y : A) l : x :: y :: l = [x] ++ y :: l.
Proof. done. Qed.
Lemma pm_cons_app {A} (x : A) l l' : x :: (l ++ l') = [x] ++ l ++ l'.
Proof. done. Qed.
Lemma pm_end {A} (l l' : list A) : l ++ [] ≡ₚ l' ++ [] -> l ≡ₚ l'.
Proof. by rewrite !app_nil_r. Qed.
Ltac perm :=
  apply pm_end; repeat (rewrite <- ?app_assoc; cbn [app]); rewrite ?pm_cons, ?pm_cons_app;
  repeat (eapply pm_step; [repeat first [apply pm_here | apply pm_next]|]); try reflexivity.

(** ** Memory *)
Lemma mem_get_set_ne h a v b : b <> a -> mem_get (mem_set h a v) b = mem_get h b.
Proof.
  intros Hne. unfold mem_get, mem_set, set_arr, arr. simpl. destruct a as [a i], b as [b j]. simpl in *.
  destruct (decide (b = a)) as [->|Hb].
  - destruct (h_arr h !! a) as [l|] eqn:E.
    + rewrite list_lookup_insert by (by eapply lookup_lt_Some). simpl. rewrite list_lookup_insert_ne; [done|congruence].
    + rewrite list_insert_ge by (by apply lookup_ge_None). by rewrite E.
  - by rewrite list_lookup_insert_ne.
Qed.
Lemma mem_set_dom h a v b : is_Some (mem_get (mem_set h a v) b) <-> is_Some (mem_get h b).
Proof.
  destruct (decide (b = a)) as [->|Hb]; [|by rewrite mem_get_set_ne].
  unfold mem_get, mem_set, set_arr, arr. simpl. destruct (h_arr h !! a.1) as [l|] eqn:E.
  - rewrite list_lookup_insert by (by eapply lookup_lt_Some). simpl. by rewrite !lookup_lt_is_Some, insert_length.
  - rewrite list_insert_ge by (by apply lookup_ge_None). by rewrite E.
Qed.
Lemma mem_set_comm h a v b w : a <> b -> mem_set (mem_set h a v) b w = mem_set (mem_set h b w) a v.
Proof.
  intros Hne. unfold mem_set, set_arr. destruct h as [ha hm hp hs hr]. simpl. f_equal.
  destruct a as [a i], b as [b j]. unfold arr. simpl in *. destruct (decide (a = b)) as [->|Hab].
  - rewrite !list_insert_insert. destruct (ha !! b) as [l|] eqn:E.
    + rewrite !list_lookup_insert by (by eapply lookup_lt_Some). simpl. rewrite list_insert_commute; [done|congruence].
    + rewrite !list_insert_ge; [done|by apply lookup_ge_None..].
  - rewrite list_lookup_insert_ne, list_lookup_insert_ne by done. by apply list_insert_commute.
Qed.

(** ** Jobs and their footprints *)
Section jobs.
Context {R : Type}.
Notation note := (string * R)%type.
Implicit Types (j : job R).

Inductive fp (rs ws : addr -> Prop) : job R -> Prop :=
| fp_ret r : fp rs ws (JRet r)
| fp_panic : fp rs ws JPanic
| fp_rd a f : rs a -> (forall v, fp rs ws (f v)) -> fp rs ws (JRd a f)
| fp_wr a v j : ws a -> fp rs ws j -> fp rs ws (JWr a v j).

Lemma run_job_dom j : forall h r h', run_job j h = Some (r, h') -> forall a, is_Some (mem_get h' a) <-> is_Some (mem_get h a).
Proof.
  induction j as [r'| |a f IH|a v j IH]; intros h r h' E b; simpl in E.
  - by injection E as -> ->.
  - done.
  - destruct (mem_get h a) as [v|] eqn:Ea; [|done]. by eapply IH.
  - destruct (mem_get h a) as [w|] eqn:Ea; [|done]. rewrite (IH _ _ _ E b). apply mem_set_dom.
Qed.
Lemma run_job_get rs ws j : fp rs ws j -> forall h r h' a, run_job j h = Some (r, h') -> ~ ws a -> mem_get h' a = mem_get h a.
Proof.
  induction 1 as [r'| |b f Hb Hf IH|b v j Hb Hj IH]; intros h r h' a E Ha; simpl in E.
  - by injection E as -> ->.
  - done.
  - destruct (mem_get h b) as [v|] eqn:Eb; [|done]. by eapply IH.
  - destruct (mem_get h b) as [w|] eqn:Eb; [|done]. rewrite (IH _ _ _ _ E Ha). apply mem_get_set_ne. intros ->. done.
Qed.
Lemma run_job_set rs ws j : fp rs ws j -> forall h a v r h', ~ rs a -> ~ ws a ->
  run_job j h = Some (r, h') -> run_job j (mem_set h a v) = Some (r, mem_set h' a v).
Proof.
  induction 1 as [r'| |b f Hb Hf IH|b w j Hb Hj IH]; intros h a v r h' Ha1 Ha2 E; simpl in E |- *.
  - by injection E as -> ->.
  - done.
  - rewrite mem_get_set_ne by (intros ->; done). destruct (mem_get h b) as [u|]; [|done]. by apply IH.
  - rewrite mem_get_set_ne by (intros ->; done). destruct (mem_get h b) as [u|]; [|done].
    rewrite mem_set_comm by (intros ->; done). by apply IH.
Qed.
Lemma run_job_unset rs ws j : fp rs ws j -> forall h a v r h', ~ rs a -> ~ ws a ->
  run_job j (mem_set h a v) = Some (r, h') -> exists h1, run_job j h = Some (r, h1) /\ h' = mem_set h1 a v.
Proof.
  induction 1 as [r'| |b f Hb Hf IH|b w j Hb Hj IH]; intros h a v r h' Ha1 Ha2 E; simpl in E |- *.
  - injection E as -> <-. eauto.
  - done.
  - rewrite mem_get_set_ne in E by (intros ->; done). destruct (mem_get h b) as [u|]; [|done]. by apply IH.
  - rewrite mem_get_set_ne in E by (intros ->; done). destruct (mem_get h b) as [u|]; [|done].
    rewrite mem_set_comm in E by (intros ->; done). by apply IH.
Qed.
Definition apart (rs1 ws1 rs2 ws2 : addr -> Prop) : Prop :=
  forall a, (ws1 a -> ~ rs2 a /\ ~ ws2 a) /\ (ws2 a -> ~ rs1 a /\ ~ ws1 a).
Lemma run_job_swap rs1 ws1 rs2 ws2 j1 j2 : apart rs1 ws1 rs2 ws2 -> fp rs1 ws1 j1 -> fp rs2 ws2 j2 ->
  forall h r1 h1 r2 h2, run_job j1 h = Some (r1, h1) -> run_job j2 h1 = Some (r2, h2) ->
  exists h1', run_job j2 h = Some (r2, h1') /\ run_job j1 h1' = Some (r1, h2).
Proof.
  intros Hd H1 H2. induction H1 as [r'| |b f Hb Hf IH|b w j Hb Hj IH]; intros h r1 h1 r2 h2 E1 E2; simpl in E1.
  - injection E1 as -> ->. eauto.
  - done.
  - destruct (mem_get h b) as [v|] eqn:Eb; [|done]. destruct (IH v _ _ _ _ _ E1 E2) as (h1' & F1 & F2).
    exists h1'. split; [done|]. simpl. rewrite (run_job_get _ _ _ H2 _ _ _ b F1), Eb; [done|].
    intros Hw. by destruct (proj2 (Hd b) Hw).
  - destruct (mem_get h b) as [v|] eqn:Eb; [|done]. destruct (IH _ _ _ _ _ E1 E2) as (h1' & F1 & F2).
    destruct (proj1 (Hd b) Hb) as [N1 N2]. destruct (run_job_unset _ _ _ H2 _ _ _ _ _ N1 N2 F1) as (h3 & G1 & ->).
    exists h3. split; [done|]. simpl. destruct (mem_get h3 b) as [u|] eqn:Eu; [done|].
    assert (is_Some (mem_get h3 b)) as [? ?]; [|congruence]. apply (run_job_dom _ _ _ _ G1). by eexists.
Qed.

(** Jobs one after the other. *)
Fixpoint seq_all (l : list (string * job R)) (h : heap) : option (list note * heap) :=
  match l with
  | [] => Some ([], h)
  | (k, j) :: l =>
      match run_job j h with
      | Some (r, h1) => match seq_all l h1 with Some (rs, h2) => Some ((k, r) :: rs, h2) | None => None end
      | None => None
      end
  end.
Lemma seq_all_app l l' h : seq_all (l ++ l') h =
  match seq_all l h with
  | Some (rs, h1) => match seq_all l' h1 with Some (rs', h2) => Some (rs ++ rs', h2) | None => None end
  | None => None
  end.
Proof.
  revert h. induction l as [|[k j] l IH]; intros h; simpl.
  - by destruct (seq_all l' h) as [[? ?]|].
  - destruct (run_job j h) as [[r h1]|]; [|done]. rewrite IH. destruct (seq_all l h1) as [[rs h2]|]; [|done].
    by destruct (seq_all l' h2) as [[? ?]|].
Qed.
Lemma seq_all_keys l : forall h rs h', seq_all l h = Some (rs, h') -> rs.*1 = l.*1.
Proof.
  induction l as [|[k j] l IH]; intros h rs h' E; simpl in E; [by injection E as <- <-|].
  destruct (run_job j h) as [[r h1]|]; [|done]. destruct (seq_all l h1) as [[rs' h2]|] eqn:E2; [|done].
  injection E as <- <-. change (k :: rs'.*1 = k :: l.*1). f_equal. by eapply IH.
Qed.

Context (rs ws : string -> addr -> Prop).
(** Jobs of different keys do not interfere. *)
Definition no_interference : Prop := forall k k', k <> k' -> apart (rs k) (ws k) (rs k') (ws k').
Definition fps (l : list (string * job R)) : Prop := Forall (fun p => fp (rs p.1) (ws p.1) p.2) l.

Lemma seq_all_perm l l' : no_interference -> l ≡ₚ l' -> fps l -> NoDup l.*1 ->
  forall h ns h', seq_all l h = Some (ns, h') -> exists ns', seq_all l' h = Some (ns', h') /\ ns' ≡ₚ ns.
Proof.
  intros Hni. induction 1 as [|[k j] l l' Hp IH|[k1 j1] [k2 j2] l|l1 l2 l3 Hp1 IH1 Hp2 IH2]; intros Hf Hnd h ns h' E.
  - by exists ns.
  - apply Forall_cons in Hf as [_ Hf]. apply NoDup_cons in Hnd as [_ Hnd]. simpl in E |- *.
    destruct (run_job j h) as [[r h1]|]; [|done]. destruct (seq_all l h1) as [[ns1 h2]|] eqn:E2; [|done].
    injection E as <- <-. destruct (IH Hf Hnd _ _ _ E2) as (ns' & -> & Hp'). exists ((k, r) :: ns'). split; [done|]. by rewrite Hp'.
  - apply Forall_cons in Hf as [F2 Hf]. apply Forall_cons in Hf as [F1 Hf]. simpl in F1, F2.
    simpl in Hnd. apply NoDup_cons in Hnd as [N2 Hnd]. simpl in E |- *.
    destruct (run_job j2 h) as [[r2 h1]|] eqn:E1; [|done]. destruct (run_job j1 h1) as [[r1 h2]|] eqn:E2; [|done].
    destruct (seq_all l h2) as [[ns1 h3]|] eqn:E3; [|done]. injection E as <- <-.
    destruct (run_job_swap (rs k2) (ws k2) (rs k1) (ws k1) j2 j1) with (h := h) (r1 := r2) (h1 := h1) (r2 := r1) (h2 := h2)
      as (h1' & G1 & G2); [apply Hni; set_solver|done..|].
    rewrite G1, G2, E3. eexists. split; [done|]. apply perm_swap.
  - destruct (IH1 Hf Hnd _ _ _ E) as (ns1 & E1 & P1). destruct (IH2) with (h := h) (ns := ns1) (h' := h') as (ns2 & E2 & P2); [| |done|].
    + unfold fps. by rewrite <- Hp1.
    + by rewrite <- Hp1.
    + exists ns2. split; [done|]. by rewrite P2.
Qed.
(** Reading or writing a cell first, for a job further down the list. *)
Lemma seq_all_get l h ns h' a : fps l -> Forall (fun p => ~ ws p.1 a) l ->
  seq_all l h = Some (ns, h') -> mem_get h' a = mem_get h a.
Proof.
  revert h ns h'. induction l as [|[k j] l IH]; intros h ns h' Hf Ha E; simpl in E; [by injection E as <- <-|].
  apply Forall_cons in Hf as [F1 Hf]. apply Forall_cons in Ha as [A1 Ha].
  destruct (run_job j h) as [[r h1]|] eqn:E1; [|done]. destruct (seq_all l h1) as [[ns1 h2]|] eqn:E2; [|done].
  injection E as <- <-. rewrite (IH _ _ _ Hf Ha E2). by eapply run_job_get.
Qed.
Lemma seq_all_set l h ns h' a v : fps l -> Forall (fun p => ~ rs p.1 a /\ ~ ws p.1 a) l ->
  seq_all l h = Some (ns, h') -> seq_all l (mem_set h a v) = Some (ns, mem_set h' a v).
Proof.
  revert h ns h'. induction l as [|[k j] l IH]; intros h ns h' Hf Ha E; simpl in E |- *; [by injection E as <- <-|].
  apply Forall_cons in Hf as [F1 Hf]. apply Forall_cons in Ha as [[A1 A2] Ha].
  destruct (run_job j h) as [[r h1]|] eqn:E1; [|done]. destruct (seq_all l h1) as [[ns1 h2]|] eqn:E2; [|done].
  injection E as <- <-. rewrite (run_job_set _ _ _ F1 _ _ _ _ _ A1 A2 E1). by rewrite (IH _ _ _ Hf Ha E2).
Qed.
Lemma seq_all_dom l h ns h' : seq_all l h = Some (ns, h') -> forall a, is_Some (mem_get h' a) <-> is_Some (mem_get h a).
Proof.
  revert h ns h'. induction l as [|[k j] l IH]; intros h ns h' E a; simpl in E; [by injection E as <- <-|].
  destruct (run_job j h) as [[r h1]|] eqn:E1; [|done]. destruct (seq_all l h1) as [[ns1 h2]|] eqn:E2; [|done].
  injection E as <- <-. rewrite (IH _ _ _ E2). by eapply run_job_dom.
Qed.
End jobs.
