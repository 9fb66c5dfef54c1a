(** Printing: lemmas. *)
From stdpp Require Import pretty.
From Coq Require Import Strings.Ascii.
From Verif Require Import M_Print Spec_Print P_Base P_Check.

(** ** Order of strings *)
Lemma bytes_le_leb s : forall t, String.leb s t = true <-> bytes_le s t.
Proof.
  induction s as [|a s IH]; intros [|b t]; cbn; try done. specialize (IH t). unfold String.leb in *. cbn [String.compare].
  unfold Ascii.compare. destruct (N.compare_spec (N_of_ascii a) (N_of_ascii b)) as [E|E|E].
  - assert (a = b) as <- by (rewrite <- (ascii_N_embedding a), <- (ascii_N_embedding b); by f_equal). rewrite IH. split; [by right|intros [H|[_ H]]; [lia|done]].
  - split; [by left|done].
  - split; [done|]. intros [H|[<- _]]; lia.
Qed.
Lemma bytes_le_trans a : forall b c, bytes_le a b -> bytes_le b c -> bytes_le a c.
Proof.
  induction a as [|x a IH]; intros [|y b] [|z c]; cbn; try done. intros [H1|[<- H1]] [H2|[<- H2]]; [left; lia|by left|by left|right; eauto].
Qed.
Global Instance str_leb_total : Total str_leb.
Proof. intros a b. apply String.leb_total. Qed.
Global Instance str_leb_trans : Transitive str_leb.
Proof. intros a b c H1 H2. unfold str_leb in *. rewrite bytes_le_leb in *. by eapply bytes_le_trans. Qed.
Lemma sort_in_order (X : gset string) : in_order (fun c => c ∈ X) (sort_strings (elements X)).
Proof.
  pose proof (merge_sort_Permutation str_leb (elements X)) as HP. split; [|split].
  - assert (H : StronglySorted str_leb (sort_strings (elements X))) by (apply StronglySorted_merge_sort; apply _).
    induction H as [|x l H IH HF]; constructor; [done|]. eapply Forall_impl; [exact HF|]. intros y Hy. by apply bytes_le_leb.
  - unfold sort_strings. rewrite HP. apply NoDup_elements.
  - intros c. unfold sort_strings. rewrite HP. apply elem_of_elements.
Qed.
(** ** Steps of printing *)
Definition o2r {A} (o : option A) : res A := match o with Some a => Ok a | None => Panic end.
Lemma print_all_text {A} (p : A -> res string) (q : A -> option string) l : (forall x, x ∈ l -> p x = o2r (q x)) ->
  print_all p l = o2r (text <$> mapM q l).
Proof.
  induction l as [|x l IH]; intros H; [done|]. cbn [print_all mapM]. rewrite H by left. destruct (q x) as [a|]; [|done]. cbn.
  rewrite IH by (intros y Hy; apply H; by right). by destruct (mapM q l).
Qed.
Lemma append_nil_r (s : string) : s +:+ "" = s.
Proof. induction s as [|a s IH]; [done|]. change (String a (s +:+ "") = String a s). by rewrite IH. Qed.
Lemma append_assoc (a b c : string) : (a +:+ b) +:+ c = a +:+ (b +:+ c).
Proof. induction a as [|x a IH]; [done|]. change (String x ((a +:+ b) +:+ c) = String x (a +:+ (b +:+ c))). by rewrite IH. Qed.
Lemma concat_text l : String.concat "" l = text l.
Proof.
  induction l as [|a l IH]; [done|]. change (text (a :: l)) with (a +:+ text l). rewrite <- IH. destruct l; [symmetry; apply append_nil_r|done].
Qed.
Lemma text_app l k : text (l ++ k) = text l +:+ text k.
Proof. induction l as [|a l IH]; [done|]. change (a +:+ text (l ++ k) = (a +:+ text l) +:+ text k). rewrite append_assoc. by f_equal. Qed.
Lemma pad_int_align w z : pad_int w z = right_align w (pretty z).
Proof. unfold pad_int, right_align. by rewrite concat_text. Qed.

Section print.
Context {prt : PrintRT}.
Lemma print_val_shown f (t : table) c v :
  print_val f (bool_decide (is_Some (t_enc t))) (bool_decide (c ∈ t_strs t)) v = o2r (shown (pr_float f) pr_addr t c v).
Proof.
  destruct v as [o|x|z|b]; [|done..]. destruct o as [|s|i]; [done|..]; cbn; rewrite <- decide_bool_decide; destruct (decide (c ∈ t_strs t)); try done;
    destruct (t_enc t); done.
Qed.
Lemma print_cells_text (p : val -> res string) (q : val -> option string) vs : (forall v, p v = o2r (q v)) ->
  forall js, Forall (fun j => j < length vs) js -> print_cells p vs js = o2r (text <$> mapM q (pick js vs)).
Proof.
  intros Hp. induction 1 as [|j js Hj HF IH]; [done|]. cbn [print_cells]. destruct (lookup_lt_is_Some_2 vs j Hj) as [v Hv].
  rewrite pick_cons, Hv. cbn [mapM]. rewrite Hp. destruct (q v); [|done]. cbn. rewrite IH. by destruct (mapM q (pick js vs)).
Qed.
Lemma col_range h d n k s : wfn h d n -> mp h (r_maps (d_raw d)) !! k = Some s -> length (sl_vals h s) = n.
Proof.
  intros W Hk. destruct (wf_cols _ _ _ W k s Hk) as [(A & B & C) <-]. unfold sl_vals. rewrite take_length, drop_length. lia.
Qed.
Lemma print_kind_text h d n f k : wf h d ->
  print_kind h d n f k =
    o2r (text <$> mapM (fun c => column_line (pr_float f) pr_addr (abs h d) n (k, c)) (sort_strings (elements (names_of k (mp h (r_maps (d_raw d))))))).
Proof.
  intros [N W]. unfold print_kind. apply print_all_text. intros c Hc. unfold column_line. cbn [abs t_cols snd]. rewrite lookup_fmap.
  destruct (mp h (r_maps (d_raw d)) !! (k, c)) as [s|] eqn:Es; [|done]. cbn [fmap option_fmap option_map mbind option_bind].
  change (r_enc (d_raw d)) with (t_enc (abs h d)). change (ostr h (r_strs (d_raw d))) with (t_strs (abs h d)).
  pose proof (col_range h d N (k, c) s W Es) as HL. pose proof (wf_rng _ _ _ W) as HR.
  rewrite (print_cells_text _ (shown (pr_float f) pr_addr (abs h d) c)).
  - rewrite pick_take by (rewrite HL; exact HR). by destruct (mapM _ (take n _)).
  - intros v. apply print_val_shown.
  - rewrite HL. by apply Forall_take.
Qed.
End print.
