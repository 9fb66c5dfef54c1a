(** To1CSV. *)
From Verif Require Export Spec_Csv M_CsvW.

Section csv.
Context {crt : CsvRT}.
Lemma render_show marker v : render marker v = match cell_text marker v with Some s => Ok s | None => Panic end.
Proof. by destruct v as [[]| | |[]]. Qed.

Lemma mapM_cons {A B} (f : A -> option B) x l : mapM f (x :: l) =
  match f x with Some y => match mapM f l with Some r => Some (y :: r) | None => None end | None => None end.
Proof. done. Qed.
(** The text of the value at position [k] of a column. *)
Definition ctext (marker : string) (k : nat) (vs : list val) : option string := vs !! k ≫= cell_text marker.

Lemma fill_cells_spec marker vs col W ks : forall pre batch,
  length ks <= length batch -> Forall (fun row => length row = W) batch -> col < W ->
  fill_cells marker vs col (length pre) ks (pre ++ batch) =
    match mapM (fun k => ctext marker k vs) ks with
    | Some ss => Ok (pre ++ zip_with (fun s row => <[col := s]> row) ss batch ++ drop (length ks) batch)
    | None => Panic
    end.
Proof.
  induction ks as [|k ks IH]; intros pre batch Hl F Hc; [done|].
  destruct batch as [|row batch]; [simpl in Hl; lia|]. apply Forall_cons in F as [Fr F]. cbn [fill_cells]. rewrite mapM_cons.
  assert (El : (pre ++ row :: batch) !! length pre = Some row) by (rewrite lookup_app_r by lia; by rewrite Nat.sub_diag).
  rewrite El. unfold ctext at 1. destruct (vs !! k) as [v|]; simpl; [|done]. rewrite render_show.
  destruct (cell_text marker v) as [s|]; [|done]. simpl. rewrite decide_True by lia.
  rewrite insert_app_r_alt by lia. rewrite Nat.sub_diag. simpl.
  specialize (IH (pre ++ [<[col := s]> row]) batch). rewrite app_length, <- app_assoc in IH. simpl in IH.
  rewrite Nat.add_1_r in IH. rewrite IH; [|simpl in Hl; lia|done|done].
  destruct (mapM _ ks) as [ss|]; [|done]. simpl. by rewrite <- app_assoc.
Qed.

(** A record: the texts of the row at storage position [k]. *)
Definition crecord (marker : string) (cols : list (list val)) (k : nat) : option (list string) := mapM (ctext marker k) cols.

Lemma mapM_none_iff {A B} (f : A -> option B) l : mapM f l = None <-> exists x, x ∈ l /\ f x = None.
Proof.
  induction l as [|x l IH]; [split; [done|]; by intros (? & ?%elem_of_nil & _)|]. rewrite mapM_cons.
  split.
  - destruct (f x) as [y|] eqn:E; [|intros _; exists x; split; [by left|done]]. simpl.
    destruct (mapM f l); [done|]. intros _. destruct IH as [(z & ? & ?) _]; [done|]. exists z. split; [by right|done].
  - intros (z & [->|Hz]%elem_of_cons & E); [by rewrite E|]. destruct IH as [_ IH]. rewrite IH by (by exists z). by destruct (f x).
Qed.

(** After the columns before [col] have been filled in. *)
Definition filled (marker : string) (cs : list (list val)) (col W : nat) (ks : list nat) (batch : list (list string)) : Prop :=
  Forall (fun row => length row = W) batch /\ length ks <= length batch /\
  Forall2 (fun k row => exists r, crecord marker cs k = Some r /\ take col row = r) ks (take (length ks) batch).

Lemma crecord_app marker cs vs k r s : crecord marker cs k = Some r -> ctext marker k vs = Some s ->
  crecord marker (cs ++ [vs]) k = Some (r ++ [s]).
Proof.
  unfold crecord. revert r. induction cs as [|c cs IH]; intros r; rewrite <- ?app_comm_cons, ?app_nil_l, !mapM_cons.
  - intros [= <-] ->. done.
  - destruct (ctext marker k c) as [s0|]; [|done]. simpl. destruct (mapM _ cs) as [r'|]; [|done]. simpl. intros [= <-] E.
    rewrite (IH r') by done. done.
Qed.

Lemma fill_cols_spec marker W ks cols : forall cs batch, filled marker cs (length cs) W ks batch -> length cs + length cols = W ->
  match fill_cols marker cols (length cs) ks batch with
  | Ok batch' => filled marker (cs ++ cols) W W ks batch' /\ length batch' = length batch
  | Panic => exists k vs, k ∈ ks /\ vs ∈ cols /\ ctext marker k vs = None
  end.
Proof.
  induction cols as [|vs cols IH]; intros cs batch (F & L & R) HW.
  { simpl in HW. rewrite Nat.add_0_r in HW. rewrite app_nil_r. cbn [fill_cols]. split; [|done]. rewrite HW in R. done. }
  cbn [fill_cols]. simpl in HW.
  pose proof (fill_cells_spec marker vs (length cs) W ks [] batch L F ltac:(lia)) as E. simpl in E. rewrite E.
  destruct (mapM (fun k => ctext marker k vs) ks) as [ss|] eqn:Em.
  2: { apply mapM_none_iff in Em as (k & Hk & E0). simpl. exists k, vs. split; [done|]. split; [by left|done]. }
  cbn [res_bind]. set (b1 := zip_with _ ss batch ++ drop (length ks) batch).
  assert (Hss : length ss = length ks) by (symmetry; by eapply mapM_length).
  assert (Hb1 : length b1 = length batch).
  { unfold b1. rewrite app_length, zip_with_length, drop_length. lia. }
  specialize (IH (cs ++ [vs]) b1). rewrite app_length in IH. simpl in IH. rewrite Nat.add_1_r in IH.
  assert (Fd : filled marker (cs ++ [vs]) (S (length cs)) W ks b1).
  { split; [|split; [lia|]].
    - unfold b1. apply Forall_app. split; [|by apply Forall_drop]. clear -F. revert ss.
      induction F as [|row batch Fr F IHF]; intros [|s ss]; try (by constructor). simpl. constructor; [by rewrite insert_length|apply IHF].
    - assert (take (length ks) b1 = zip_with (fun s row => <[length cs := s]> row) ss (take (length ks) batch)) as ->.
      { unfold b1. rewrite take_app_le by (rewrite zip_with_length; lia). rewrite zip_with_take. by rewrite (take_ge ss) by lia. }
      assert (F1 : Forall (fun row => length row = W) (take (length ks) batch)) by (by apply Forall_take).
      apply mapM_Some_1 in Em. clear -R Em F1 HW. revert F1 ss Em. induction R as [|k row ks rows (r & Er & Et) R IHR]; intros F1 ss Em.
      + inversion Em. constructor.
      + inversion Em as [|? s ? ss' Es Em' E1 E2]; clear Em; subst ss. apply Forall_cons in F1 as [Fr F1]. simpl. constructor; [|by apply IHR].
        exists (r ++ [s]). split; [by apply crecord_app|]. rewrite (take_S_r _ _ s).
        * rewrite take_insert by lia. by rewrite Et.
        * apply list_lookup_insert. lia. }
  specialize (IH Fd ltac:(lia)). rewrite <- app_assoc in IH. simpl in IH.
  destruct (fill_cols marker cols (S (length cs)) ks b1) as [b2|].
  - destruct IH as [? ?]. split; [done|lia].
  - destruct IH as (k & vs' & ? & ? & ?). exists k, vs'. split; [done|]. split; [by right|done].
Qed.

Lemma fill_batch marker cols ks batch W : length cols = W -> length ks <= length batch ->
  Forall (fun row => length row = W) batch ->
  match fill_cols marker cols 0 ks batch with
  | Ok batch' => mapM (crecord marker cols) ks = Some (take (length ks) batch') /\
      length batch' = length batch /\ Forall (fun row => length row = W) batch'
  | Panic => mapM (crecord marker cols) ks = None
  end.
Proof.
  intros HW L F. pose proof (fill_cols_spec marker W ks cols [] batch) as H. simpl in H.
  assert (Fd : filled marker [] 0 W ks batch).
  { split; [done|]. split; [done|]. apply Forall2_same_length_lookup. split; [rewrite take_length; lia|].
    intros i k row Hk Hr. exists []. split; [done|]. by rewrite take_0. }
  specialize (H Fd HW). destruct (fill_cols marker cols 0 ks batch) as [b2|].
  - destruct H as [(F2 & L2 & R2) E2]. split; [|done]. apply mapM_Some_2. assert (Fb : Forall (fun row => length row = W) (take (length ks) b2)) by (by apply Forall_take).
    clear -R2 Fb. revert R2 Fb. generalize (take (length ks) b2) as rows. intros rows R2. induction R2 as [|k row ks rows (r & Er & Et) R2 IH]; intros Fb; [constructor|].
    apply Forall_cons in Fb as [Fr Fb]. constructor; [|by apply IH]. rewrite Er, <- Et. f_equal. rewrite take_ge; [done|]. lia.
  - destruct H as (k & vs & Hk & Hv & E). apply mapM_none_iff. exists k. split; [done|]. apply mapM_none_iff. exists vs. done.
Qed.

Lemma mapM_app_1 {A B} (f : A -> option B) l1 l2 : mapM f (l1 ++ l2) = r1 ← mapM f l1; r2 ← mapM f l2; Some (r1 ++ r2).
Proof.
  induction l1 as [|x l1 IH]; [simpl; by destruct (mapM f l2)|]. rewrite <- app_comm_cons, !mapM_cons. destruct (f x); [|done]. rewrite IH.
  destruct (mapM f l1); [|done]. simpl. by destruct (mapM f l2).
Qed.

(** Every flush succeeds. *)
Lemma write_batches_all marker cols flush W fuel : (forall j, flush j = true) -> length cols = W ->
  forall j ks batch out pend, length ks <= fuel -> length batch = batch_rows -> Forall (fun row => length row = W) batch ->
  write_batches fuel flush marker cols j ks batch out pend =
    match mapM (crecord marker cols) ks with
    | Some rows => Ok (out ++ pend ++ rows, false)
    | None => Panic
    end.
Proof.
  intros Hf HW. induction fuel as [|fuel IH]; intros j ks batch out pend Hk Hb F.
  { destruct ks; [|simpl in Hk; lia]. simpl. by rewrite Hf, app_nil_r. }
  destruct ks as [|k0 ks0] eqn:Ek; [simpl; by rewrite Hf, app_nil_r|]. rewrite <- Ek in *.
  assert (Hne : ks <> []) by congruence.
  replace (write_batches (S fuel) flush marker cols j ks batch out pend) with
    (let part := take batch_rows ks in
     let? batch := fill_cols marker cols 0 part batch in
     if flush j then
        write_batches fuel flush marker cols (S j) (drop batch_rows ks) batch (out ++ pend ++ take (length part) batch) []
      else Ok (out, true)) by (by rewrite Ek).
  cbv zeta. pose proof (fill_batch marker cols (take batch_rows ks) batch W HW) as HF.
  pose proof (mapM_app_1 (crecord marker cols) (take batch_rows ks) (drop batch_rows ks)) as Esp. rewrite take_drop in Esp. rewrite Esp.
  destruct (fill_cols marker cols 0 (take batch_rows ks) batch) as [b2|].
  - destruct HF as (E2 & L2 & F2); [rewrite take_length; lia|done|]. rewrite E2. cbn [res_bind mbind option_bind]. rewrite Hf.
    rewrite IH; [|rewrite drop_length; unfold batch_rows; lia|congruence|done].
    destruct (mapM _ (drop batch_rows ks)) as [rows|]; [|done]. simpl. by rewrite <- !app_assoc.
  - rewrite HF; [done|rewrite take_length; lia|done].
Qed.

(** Flush number [n] is the first one to fail. *)
Lemma write_batches_fail marker cols flush W n : length cols = W -> flush n = false ->
  forall d j fuel ks batch out pend rows, j + d = n -> (forall i, j <= i -> i < n -> flush i = true) ->
  length ks <= fuel -> batch_rows * d < length ks -> length batch = batch_rows -> Forall (fun row => length row = W) batch ->
  mapM (crecord marker cols) ks = Some rows ->
  write_batches fuel flush marker cols j ks batch out pend =
    Ok (out ++ (if decide (d = 0) then [] else pend ++ take (batch_rows * d) rows), true).
Proof.
  intros HW Hn. induction d as [|d IH]; intros j fuel ks batch out pend rows Hj Hfl Hk Hd Hb F Hr.
  all: destruct ks as [|k0 ks0] eqn:Ek; [simpl in Hd; lia|]; rewrite <- Ek in *; destruct fuel as [|fuel]; [rewrite Ek in Hk; simpl in Hk; lia|];
  replace (write_batches (S fuel) flush marker cols j ks batch out pend) with
    (let part := take batch_rows ks in
     let? batch := fill_cols marker cols 0 part batch in
     if flush j then
        write_batches fuel flush marker cols (S j) (drop batch_rows ks) batch (out ++ pend ++ take (length part) batch) []
      else Ok (out, true)) by (by rewrite Ek);
  cbv zeta; pose proof (fill_batch marker cols (take batch_rows ks) batch W HW) as HF;
  pose proof (mapM_app_1 (crecord marker cols) (take batch_rows ks) (drop batch_rows ks)) as Esp; rewrite take_drop in Esp; rewrite Esp in Hr;
  destruct (fill_cols marker cols 0 (take batch_rows ks) batch) as [b2|];
  [|rewrite HF in Hr; [done|rewrite take_length; lia|done]];
  destruct HF as (E2 & L2 & F2); [rewrite take_length; lia|done|]; rewrite E2 in Hr; cbn [res_bind mbind option_bind] in *;
  destruct (mapM _ (drop batch_rows ks)) as [rows2|] eqn:E3; [|done]; injection Hr as <-.
  - assert (j = n) as -> by lia. rewrite Hn, decide_True by done. by rewrite app_nil_r.
  - rewrite Hfl by lia. assert (Hlp : length (take batch_rows ks) = batch_rows) by (rewrite take_length; unfold batch_rows in *; lia).
    rewrite (IH (S j) fuel (drop batch_rows ks) b2 _ [] rows2); [|lia|intros i ? ?; apply Hfl; lia|rewrite drop_length; unfold batch_rows; lia|rewrite drop_length; lia|congruence|done|done].
    f_equal. f_equal. rewrite Hlp.
    rewrite (decide_False (P := S d = 0)) by lia. rewrite <- !app_assoc. f_equal. f_equal.
    rewrite Nat.mul_succ_r, Nat.add_comm. assert (Ht : length (take batch_rows b2) = batch_rows) by (rewrite take_length; lia).
    rewrite take_app_ge by lia. rewrite Ht. f_equal. rewrite Nat.add_comm, Nat.add_sub.
    destruct (decide (d = 0)) as [->|]; [by rewrite Nat.mul_0_r, take_0|done].
Qed.
Lemma write_batches_none marker cols flush fuel j batch out pend :
  write_batches fuel flush marker cols j [] batch out pend = Ok (if flush j then out ++ pend else out, false).
Proof. by destruct fuel. Qed.
End csv.
