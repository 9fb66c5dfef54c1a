(** Executing given schedules of a pool, for witnesses. *)
From Verif Require Export M_Pool.

Section exec.
Context {R : Type} (deferred : bool) (n : nat) (prog : string -> job R).
(** One step of worker [i] or, for [None], of the collector. *)
Definition exec1 (a : option nat) (s : pool R) : option (pool R) :=
  if p_crash s then None else
  match a with
  | None =>
      match p_chan s with
      | x :: c => if decide (n <= length (p_got s)) then None else Some (Pool (p_q s) (p_ws s) c (p_got s ++ [x]) (p_heap s) false)
      | [] => None
      end
  | Some i =>
      match p_ws s !! i with
      | Some (Worker WNext dl lg) =>
          match p_q s with
          | [] => Some (set_w s i (Worker WExit dl lg))
          | k :: q => if decide (k = "") then None else
              Some (set_w (Pool q (p_ws s) (p_chan s) (p_got s) (p_heap s) false) i (Worker (WRun k (prog k)) dl (lg ++ [k])))
          end
      | Some (Worker (WRun k (JRd a f)) dl lg) =>
          match mem_get (p_heap s) a with Some v => Some (set_w s i (Worker (WRun k (f v)) dl lg)) | None => Some (crash s) end
      | Some (Worker (WRun k (JWr a v j)) dl lg) =>
          match mem_get (p_heap s) a with
          | Some _ => Some (set_w (Pool (p_q s) (p_ws s) (p_chan s) (p_got s) (mem_set (p_heap s) a v) false) i (Worker (WRun k j) dl lg))
          | None => Some (crash s)
          end
      | Some (Worker (WRun k JPanic) dl lg) => Some (crash s)
      | Some (Worker (WRun k (JRet r)) dl lg) =>
          Some (set_w s i (if deferred then Worker WNext ((k, r) :: dl) lg else Worker (WSend k r) dl lg))
      | Some (Worker (WSend k r) dl lg) =>
          if decide (n <= length (p_got s)) then Some (crash s) else
          if decide (length (p_chan s) < n) then
            Some (set_w (Pool (p_q s) (p_ws s) (p_chan s ++ [(k, r)]) (p_got s) (p_heap s) false) i (Worker WNext dl lg))
          else None
      | Some (Worker WExit (x :: dl) lg) =>
          if decide (n <= length (p_got s)) then Some (crash s) else
          if decide (length (p_chan s) < n) then
            Some (set_w (Pool (p_q s) (p_ws s) (p_chan s ++ [x]) (p_got s) (p_heap s) false) i (Worker WExit dl lg))
          else None
      | _ => None
      end
  end.
Lemma exec1_step a s s' : exec1 a s = Some s' -> step deferred n prog s s'.
Proof.
  unfold exec1. destruct (p_crash s) eqn:Ec; [done|]. destruct a as [i|].
  - destruct (p_ws s !! i) as [[[|k [r| |ad f|ad v j]|k r|] dl lg]|] eqn:Ew; [..|done].
    + destruct (p_q s) as [|k q] eqn:Eq; [intros [= <-]; by eapply s_closed|].
      destruct (decide (k = "")); [done|]. intros [= <-]. by eapply s_next.
    + intros [= <-]. destruct deferred eqn:Ed; [by eapply s_ret_def|by eapply s_ret_now].
    + intros [= <-]. by eapply s_panic.
    + destruct (mem_get (p_heap s) ad) as [v|] eqn:Em; intros [= <-]; [by eapply s_rd|by eapply s_rd_fault].
    + destruct (mem_get (p_heap s) ad) as [v'|] eqn:Em; intros [= <-]; [eapply s_wr; [done|done|by rewrite Em]|by eapply s_wr_fault].
    + destruct (decide _) as [Hc|Hc]; [intros [= <-]; by eapply s_send_closed|]. destruct (decide _); [|done]. intros [= <-]. by eapply s_send.
    + destruct dl as [|x dl]; [done|]. destruct (decide _) as [Hc|Hc]; [intros [= <-]; by eapply s_exit_closed|].
      destruct (decide _); [|done]. intros [= <-]. by eapply s_send_exit.
  - destruct (p_chan s) as [|x c] eqn:Eq; [done|]. destruct (decide _); [done|]. intros [= <-]. by apply s_collect.
Qed.
Fixpoint exec (l : list (option nat)) (s : pool R) : option (pool R) :=
  match l with [] => Some s | a :: l => match exec1 a s with Some s' => exec l s' | None => None end end.
Lemma exec_from s0 l : forall m s s', steps deferred n prog m s0 s -> exec l s = Some s' -> steps deferred n prog (m + length l) s0 s'.
Proof.
  induction l as [|a l IH]; intros m s s' H E; cbn in E.
  - injection E as <-. by rewrite Nat.add_0_r.
  - destruct (exec1 a s) as [s1|] eqn:E1; [|done]. cbn [length]. rewrite Nat.add_succ_r. apply (IH (S m) s1 s'); [|done].
    econstructor; [exact H|]. by eapply exec1_step.
Qed.
Lemma exec_steps l s s' : exec l s = Some s' -> steps deferred n prog (length l) s s'.
Proof. intros E. apply (exec_from s l 0 s s'); [constructor|done]. Qed.
End exec.
