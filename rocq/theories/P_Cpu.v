(** The CPU limit carried by dataframes, over all histories of operations. *)
From Verif Require Export P_WorldMain.

Section frame.
Context {rt : GoRT}.

(** [post m P]: whatever the heap, the result of [m] satisfies [P]. *)
Definition post {A} (m : M A) (P : A -> Prop) : Prop := forall h a h', m h = Ok (a, h') -> P a.
Lemma post_any {A} (m : M A) : post m (fun _ => True). Proof. done. Qed.
Lemma post_ret {A} (a : A) (P : A -> Prop) : P a -> post (ret a) P.
Proof. intros H h b h' E. by apply ret_ok in E as [-> _]. Qed.
Lemma post_panic {A} (P : A -> Prop) : post panic P.
Proof. by intros h a h'. Qed.
Lemma post_bind {A B} (m : M A) (f : A -> M B) P Q :
  post m P -> (forall a, P a -> post (f a) Q) -> post (bind m f) Q.
Proof. intros Hm Hf h b h' E. apply bind_ok in E as (a & h1 & E1 & E2). by eapply Hf; [eapply Hm|]. Qed.
Lemma post_impl {A} (m : M A) (P Q : A -> Prop) : post m P -> (forall a, P a -> Q a) -> post m Q.
Proof. intros H HQ h a h' E. apply HQ. by eapply H. Qed.

Definition same_cpu (r r' : raw) : Prop := r_cpu r' = r_cpu r.
Ltac pany := eapply post_bind; [apply post_any|intros ? _].
Ltac pret := apply post_ret; unfold same_cpu in *; simpl in *; try done; try congruence.
Ltac puse L := eapply post_bind; [apply L|intros ? ?].

Lemma cpu_own_maps r : post (own_maps r) (same_cpu r).
Proof. unfold own_maps. destruct (r_sharedMaps r); [|pret]. unfold reallocate_maps. do 2 pany. pret. Qed.
Lemma cpu_transfer_loops d f : post (transfer_loops d f) (same_cpu d).
Proof. unfold transfer_loops. do 6 pany. pret. Qed.
Lemma cpu_transfer d f : post (transfer_raw d f) (same_cpu d).
Proof.
  unfold transfer_raw. puse cpu_own_maps. eapply post_impl; [apply cpu_transfer_loops|].
  unfold same_cpu in *. intros; congruence.
Qed.
Lemma cpu_unshare r cols : post (unshare r cols) (same_cpu r).
Proof.
  unfold unshare. pany. destruct (_ && _); [pret|]. puse cpu_own_maps. do 4 pany. pret.
Qed.
Lemma cpu_rename r o n : post (rename r o n) (same_cpu r).
Proof. unfold rename. puse cpu_own_maps. do 4 pany. pret. Qed.
Lemma cpu_alloc k r cols : post (alloc_cols k r cols) (same_cpu r).
Proof.
  unfold alloc_cols. destruct (bool_decide _); [puse (post_ret r (same_cpu r)); [done|]|puse cpu_own_maps]; do 2 pany; pret.
Qed.
Lemma cpu_alloc_strings r cols : post (alloc_strings r cols) (same_cpu r).
Proof.
  unfold alloc_strings. eapply post_bind with (P := same_cpu r).
  { destruct (bool_decide _); [by pret|apply cpu_own_maps]. }
  intros r1 H1. puse cpu_alloc. pany. pret.
Qed.
Lemma cpu_i2f r cols : post (int_to_floats r cols) (same_cpu r).
Proof. unfold int_to_floats. puse cpu_own_maps. pany. pret. Qed.
Lemma cpu_b2f r cols : post (bool_to_floats r cols) (same_cpu r).
Proof. unfold bool_to_floats. puse cpu_own_maps. pany. pret. Qed.

Definition df_cpu (d : dframe) : Z := actual_max_cpu (d_raw d).
Definition is_cpu (n : Z) (d : dframe) : Prop := df_cpu d = n.
Lemma cpu_empty n c : post (empty_df n c) (is_cpu c).
Proof. unfold empty_df. pany. case_decide; [pany|]; by apply post_ret. Qed.
Lemma cpu_index d l : post (index_view d l) (is_cpu (df_cpu d)).
Proof. unfold index_view. do 2 pany. by apply post_ret. Qed.
Lemma cpu_cut d a b : post (cut d a b) (is_cpu (df_cpu d)).
Proof.
  unfold cut. pany. destruct (_ || _).
  - pany. by apply post_ret.
  - puse cpu_own_maps. do 2 pany. case_decide; [|apply post_panic]. do 2 pany. by apply post_ret.
Qed.
Lemma cpu_slice d a b : post (slice_view d a b) (is_cpu (df_cpu d)).
Proof. unfold slice_view. cbv zeta. destruct (decide (_ > _)%Z); [apply (cpu_cut (view (reverse_view d)))|apply (cpu_cut (view d))]. Qed.
Lemma cpu_column d cols : post (column_view d cols) (is_cpu (df_cpu d)).
Proof. unfold column_view. case_decide; [by apply post_ret|]. do 6 pany. by apply post_ret. Qed.
Lemma cpu_split_loop d b n : forall i, post (split_loop d n i b) (Forall (is_cpu (df_cpu d))).
Proof.
  induction n as [|n IH]; intros i; [apply post_ret; constructor|]. cbn [split_loop].
  destruct n as [|n].
  - puse (cpu_cut (view d)). apply post_ret. by repeat constructor.
  - puse (cpu_cut (view d)). puse IH. apply post_ret. by constructor.
Qed.
Lemma cpu_split d b : post (split_view d b) (Forall (is_cpu (df_cpu d))).
Proof.
  unfold split_view. case_decide; [apply post_panic|]. cbv zeta.
  destruct (decide (_ <= 1)%Z); [|apply cpu_split_loop]. apply post_ret. by repeat constructor.
Qed.
Lemma cpu_split_n d n : post (split_n_view d n) (Forall (is_cpu (df_cpu d))).
Proof.
  unfold split_n_view. case_decide; [apply post_panic|]. case_decide; [apply post_ret; constructor|].
  case_decide; [apply post_ret; by repeat constructor|]. puse cpu_split. cbv zeta.
  case_decide; [|by apply post_ret]. puse cpu_empty. apply post_ret. apply Forall_app. split; [done|].
  by apply Forall_replicate.
Qed.
Lemma cpu_sorted asort d c : post (sorted_view asort d c) (is_cpu (df_cpu d)).
Proof.
  unfold sorted_view. pany. destruct (_ !! _); pany; apply cpu_index.
Qed.
Lemma cpu_top asort d c n a s : post (top_view asort d c n a s) (is_cpu (df_cpu d)).
Proof.
  unfold top_view. destruct (top_view_self _ _ _); [by apply post_ret|]. cbv zeta.
  case_decide; [apply post_panic|]. puse cpu_sorted. destruct a; pany; apply post_ret; [done|]. by destruct s.
Qed.
Lemma cpu_detached d cols : post (detached_view d cols) (is_cpu (df_cpu d)).
Proof. unfold detached_view. puse cpu_unshare. by apply post_ret. Qed.
Lemma cpu_copy d : post (copy_df d) (is_cpu (df_cpu d)).
Proof. unfold copy_df. do 4 pany. by apply post_ret. Qed.
Lemma cpu_shallow d : post (shallow_copy d) (is_cpu (df_cpu d)).
Proof.
  unfold shallow_copy. eapply post_bind; [apply cpu_empty|intros e He]. eapply post_bind; [apply cpu_transfer|intros r Hr].
  apply post_ret. unfold is_cpu, df_cpu, actual_max_cpu, same_cpu in *. simpl. congruence.
Qed.
Lemma cpu_hash d cols : post (hash_strings_view d cols) (is_cpu (df_cpu d)).
Proof.
  unfold hash_strings_view. case_decide; [by apply post_ret|]. pany. puse cpu_column. do 2 pany. by apply post_ret.
Qed.
Lemma cpu_on_raw d f : (forall r, post (f r) (same_cpu r)) -> post (on_raw d f) (is_cpu (df_cpu d)).
Proof. intros H. unfold on_raw. puse H. by apply post_ret. Qed.
Lemma cpu_overwrite k s d c vs : post (overwrite k s d c vs) (is_cpu (df_cpu d)).
Proof.
  unfold overwrite. pany. cbv zeta. case_decide.
  - eapply post_bind with (P := same_cpu (d_raw d)); [destruct s; [apply cpu_alloc_strings|apply cpu_alloc]|].
    intros r Hr. do 2 pany. by apply post_ret.
  - pany. by apply post_ret.
Qed.
Lemma cpu_run_bop r o : post (run_bop r o) (same_cpu r).
Proof.
  assert (Ha : forall k c vs, post (b_add k r c vs) (same_cpu r)).
  { intros. unfold b_add. do 3 pany. pret. }
  destruct o; cbn [run_bop].
  - apply Ha. - unfold b_add_strings. puse Ha. unfold b_mark. pany. pret.
  - pany. unfold b_set. pany. pret. - unfold b_mark. pany. pret. - pret.
Qed.
Lemma cpu_run_bops os : forall r, post (run_bops r os) (same_cpu r).
Proof.
  induction os as [|o os IH]; intros r; cbn [run_bops]; [pret|]. puse cpu_run_bop.
  eapply post_impl; [apply IH|]. unfold same_cpu in *. intros; congruence.
Qed.
Lemma cpu_to_df r : post (to_dataframe r) (is_cpu (r_cpu r)).
Proof. unfold to_dataframe, to_dataframe_ord. do 2 pany. case_decide; [|apply post_panic]. pany. by apply post_ret. Qed.
Lemma cpu_new : post new_raw (fun r => r_cpu r = rt_ncpu).
Proof. unfold new_raw. pany. apply post_ret. simpl. unfold max_cpu. rewrite decide_True by lia. done. Qed.
Lemma cpu_merge_rows l : post (merge_raw_rows l) (fun r => r_cpu r = rt_ncpu).
Proof. unfold merge_raw_rows. puse cpu_new. destruct l; [by apply post_ret|]. do 4 pany. by apply post_ret. Qed.
Lemma cpu_row_concat d l : post (row_concat (d :: l)) (fun o => forall v, o = Some v -> df_cpu v = df_cpu d).
Proof.
  unfold row_concat. do 4 pany. destruct a2; apply post_ret; [|done]. by intros v [= <-].
Qed.
Lemma cpu_concat_loop dfs : forall r, post (concat_view_loop r dfs) (same_cpu r).
Proof.
  induction dfs as [|d dfs IH]; intros r; cbn [concat_view_loop]; [pret|]. do 6 pany.
  eapply post_impl; [apply IH|]. done.
Qed.
Lemma cpu_concat_view d l : post (column_concat_view (d :: l)) (fun o => forall v, o = Some v -> df_cpu v = df_cpu d).
Proof.
  unfold column_concat_view. pany. destruct (negb _); [by apply post_ret|]. cbv zeta. destruct (_ && _); [by apply post_ret|].
  puse cpu_shallow. eapply post_bind; [apply cpu_concat_loop|intros r Hr]. apply post_ret. intros v [= <-].
  unfold is_cpu, df_cpu, actual_max_cpu, same_cpu in *. simpl. congruence.
Qed.
Lemma cpu_copy_concat d l : post (column_copy_concat (d :: l)) (fun o => forall v, o = Some v -> df_cpu v = df_cpu d).
Proof.
  unfold column_copy_concat. destruct (forallb _ _); [|by apply post_ret]. cbn [mapM_df].
  eapply post_bind with (P := fun l => exists d' l', l = d' :: l' /\ df_cpu d' = df_cpu d).
  { eapply post_bind; [apply cpu_copy|intros e He]. pany. apply post_ret. eauto. }
  intros ? (d' & l' & -> & Hd). eapply post_bind; [apply cpu_concat_view|intros o Ho].
  destruct o as [v|]; apply post_ret; [|done]. intros w [= <-]. rewrite <- Hd. by apply (Ho v).
Qed.

(** The dataframe an operation takes its CPU limit from. *)
Definition op_source (o : op) : option nat :=
  match o with
  | OBuild _ | OMergeRows _ | OEmpty _ _ | OSetCPU _ _ => None
  | OView i | OReverse i | OReset i | OIndex i _ | OSlice i _ _ | OMask i _ | OColumns i _ | OShuffle i _
  | OSample i _ _ _ | OSplit i _ | OSplitN i _ | OTrainTest i _ | OSorted i _ _ | OTop i _ _ _ _ _
  | ODetached i _ | OCopy i | OShallow i | OHash i _ | OWrites i _ | OOverwrite i _ _ _ _ | ORename i _ _
  | ODrop i _ | OAlloc i _ _ | OAllocStrings i _ | OInts i _ | OBools i _ | OUnshare i _ | OZeroMask i
  | OEmptyMask i | OThreadSafe i _ | ORowConcat i _ | OConcatView i _ | OCopyConcat i _ => Some i
  end.
(** The limit given to the dataframes that an operation creates or changes. *)
Definition op_cpu (ds : list dframe) (o : op) : Z :=
  match o with
  | OEmpty _ cpu => cpu
  | OSetCPU _ n => if decide (1 <= n <= rt_ncpu)%Z then n else rt_ncpu
  | _ => match op_source o with Some i => from_option df_cpu rt_ncpu (ds !! i) | None => rt_ncpu end
  end.

Lemma post_add1 ds m n : post m (is_cpu n) ->
  post (add1 ds m) (fun ds' => exists vs, ds' = ds ++ vs /\ Forall (is_cpu n) vs).
Proof. intros H. unfold add1. puse H. apply post_ret. exists [a]. split; [done|]. by repeat constructor. Qed.
Lemma post_adds ds m n : post m (Forall (is_cpu n)) ->
  post (adds ds m) (fun ds' => exists vs, ds' = ds ++ vs /\ Forall (is_cpu n) vs).
Proof. intros H. unfold adds. puse H. apply post_ret. by exists a. Qed.
Lemma post_addo ds m n : post m (fun o => forall v, o = Some v -> df_cpu v = n) ->
  post (addo ds m) (fun ds' => exists vs, ds' = ds ++ vs /\ Forall (is_cpu n) vs).
Proof.
  intros H. unfold addo. puse H. apply post_ret. destruct a as [v|].
  - exists [v]. split; [done|]. constructor; [by apply H0|constructor].
  - exists []. by rewrite app_nil_r.
Qed.
(** The dataframes of [ds'] are those of [ds], those at [src] excepted, and new
    ones; the changed and the new ones have limit [n]. *)
Definition cpu_step (n : Z) (ds ds' : list dframe) : Prop :=
  Forall (fun d => d ∈ ds \/ is_cpu n d) ds'.
Lemma cpu_step_app n ds vs : Forall (is_cpu n) vs -> cpu_step n ds (ds ++ vs).
Proof.
  intros F. apply Forall_app. split; [apply Forall_forall; by left|].
  eapply Forall_impl; [exact F|]. by right.
Qed.
Lemma cpu_step_ins n ds i d : is_cpu n d -> cpu_step n ds (<[i := d]> ds).
Proof.
  intros H. apply Forall_lookup. intros j x Hj. destruct (decide (i = j)) as [<-|Hne].
  - destruct (decide (i < length ds)).
    + rewrite list_lookup_insert in Hj by done. injection Hj as <-. by right.
    + rewrite list_insert_ge in Hj by lia. left. by eapply elem_of_list_lookup_2.
  - rewrite list_lookup_insert_ne in Hj by done. left. by eapply elem_of_list_lookup_2.
Qed.
Lemma cpu_step_id n ds : cpu_step n ds ds.
Proof. apply Forall_forall. by left. Qed.

Lemma post_repl ds i m n : post m (is_cpu n) -> post (repl ds i m) (cpu_step n ds).
Proof. intros H. unfold repl. puse H. apply post_ret. by apply cpu_step_ins. Qed.
Lemma post_keep {A} ds (m : M A) n : post (keep ds m) (cpu_step n ds).
Proof. unfold keep. pany. apply post_ret, cpu_step_id. Qed.

Lemma step_cpu ds o : post (step ds o) (cpu_step (op_cpu ds o) ds).
Proof.
  assert (Hnew : forall m n, post m (fun ds' => exists vs, ds' = ds ++ vs /\ Forall (is_cpu n) vs) -> post m (cpu_step n ds)).
  { intros m n H. eapply post_impl; [exact H|]. intros ? (vs & -> & F). by apply cpu_step_app. }
  assert (Hw : forall i f n, (forall d, ds !! i = Some d -> post (f d) (cpu_step n ds)) -> post (with_df ds i f) (cpu_step n ds)).
  { intros i f n H. unfold with_df. destruct (ds !! i); [by apply H|apply post_panic]. }
  assert (Hws : forall is f n, (forall l, post (f l) (cpu_step n ds)) -> post (with_dfs ds is f) (cpu_step n ds)).
  { intros is f n H. unfold with_dfs. destruct (mapM _ _); [by apply H|apply post_panic]. }
  destruct o; cbn [step op_cpu op_source];
    try (apply Hw; intros d Hd; rewrite ?Hd; cbn [from_option]);
    try apply post_keep;
    try (apply post_repl; first
      [apply cpu_overwrite | apply cpu_on_raw; intros r; first [apply cpu_rename|apply cpu_alloc|apply cpu_alloc_strings
        |apply cpu_i2f|apply cpu_b2f|apply cpu_unshare]]);
    try (apply Hnew, post_add1; first
      [by apply post_ret | apply cpu_index | apply cpu_slice | apply cpu_column | apply cpu_sorted | apply cpu_top
      |apply cpu_detached|apply cpu_copy|apply cpu_shallow|apply cpu_hash|apply cpu_empty]);
    try (apply Hnew, post_adds; first [apply cpu_split|apply cpu_split_n]);
    try (apply Hws; intros l; apply Hnew, post_addo; first [apply cpu_row_concat|apply cpu_concat_view|apply cpu_copy_concat]).
  - apply Hnew, post_add1. eapply post_bind; [apply cpu_new|intros r Hr]. eapply post_bind; [apply cpu_run_bops|intros r' Hr'].
    eapply post_impl; [apply cpu_to_df|]. unfold is_cpu, same_cpu in *. intros; congruence.
  - apply Hws. intros l. apply Hnew, post_add1. eapply post_bind; [apply cpu_merge_rows|intros r Hr].
    eapply post_impl; [apply cpu_to_df|]. unfold is_cpu in *. intros; congruence.
  - apply Hnew, post_add1. unfold mask_view. pany. by apply post_ret.
  - apply Hnew, post_add1. unfold sample_view. destruct repl; [apply post_panic|].
    case_decide; [apply post_panic|]. unfold shuffle_view. puse cpu_index. pany. by apply post_ret.
  - apply Hnew, post_adds. eapply post_bind with (P := fun p => is_cpu (df_cpu d) p.1 /\ is_cpu (df_cpu d) p.2).
    + unfold split_train_test. destruct (_ || _); [apply post_panic|]. cbv zeta. puse cpu_slice. puse cpu_slice. by apply post_ret.
    + intros p [H1 H2]. apply post_ret. by repeat constructor.
  - apply post_repl. by apply post_ret.
  - apply post_repl. apply post_ret. unfold is_cpu, df_cpu, actual_max_cpu. simpl. unfold max_cpu.
    repeat case_decide; try done; try lia.
Qed.

(** EmptyDataFrame takes the limit as it is: the caller must give a usable one. *)
Definition cpu_arg_ok (o : op) : Prop :=
  match o with OEmpty _ cpu => (1 <= cpu <= rt_ncpu)%Z | _ => True end.
Definition cpu_ok (d : dframe) : Prop := (1 <= df_cpu d <= rt_ncpu)%Z.
Lemma op_cpu_ok ds o : cpu_arg_ok o -> Forall cpu_ok ds -> (1 <= op_cpu ds o <= rt_ncpu)%Z.
Proof.
  intros Ho F. pose proof rt_ncpu_ok. 
  assert (G : forall i, (1 <= from_option df_cpu rt_ncpu (ds !! i) <= rt_ncpu)%Z).
  { intros i. destruct (ds !! i) as [d|] eqn:E; simpl; [|lia]. by apply (Forall_lookup_1 _ _ _ _ F E). }
  destruct o; cbn [op_cpu op_source]; try apply G; try lia; [done|]. case_decide; lia.
Qed.
Lemma run_ops_cpu os : forall ds, Forall cpu_ok ds -> Forall cpu_arg_ok os -> post (run_ops ds os) (Forall cpu_ok).
Proof.
  induction os as [|o os IH]; intros ds F Ho; cbn [run_ops]; [by apply post_ret|].
  apply Forall_cons in Ho as [Ho Hos]. eapply post_bind; [apply step_cpu|intros ds1 H1]. apply IH; [|done].
  eapply Forall_impl; [exact H1|]. intros d [Hd|Hd]; [by eapply (proj1 (Forall_forall _ _))|].
  unfold cpu_ok. rewrite Hd. by apply op_cpu_ok.
Qed.
End frame.
