(** The numeric code in exact arithmetic. *)
From Coq Require Import Reals Psatz.
From Verif Require Export M_Prep Spec_Prep.
Local Open Scope R_scope.

Global Arguments r_sum : simpl never.
Lemma r_sum_cons x xs : r_sum (x :: xs) = x + r_sum xs.
Proof. done. Qed.
Lemma r_sum_app xs ys : r_sum (xs ++ ys) = r_sum xs + r_sum ys.
Proof. induction xs as [|x xs IH]; [unfold r_sum; simpl; lra|]. cbn [app]. rewrite !r_sum_cons, IH. lra. Qed.
Lemma r_sum_affine (a b : R) xs : r_sum ((fun x => (x + a) * b) <$> xs) = (r_sum xs + a * INR (length xs)) * b.
Proof.
  induction xs as [|x xs IH]; [simpl; unfold r_sum; simpl; lra|]. rewrite fmap_cons, !r_sum_cons, IH.
  cbn [length]. rewrite S_INR. lra.
Qed.
Lemma r_sum_nonneg xs : Forall (fun x => 0 <= x) xs -> 0 <= r_sum xs.
Proof. induction 1 as [|x xs Hx Hxs IH]; [unfold r_sum; simpl; lra|]. rewrite r_sum_cons. lra. Qed.
Lemma r_sum_zero xs : Forall (fun x => 0 <= x) xs -> r_sum xs = 0 -> Forall (fun x => x = 0) xs.
Proof.
  induction 1 as [|x xs Hx Hxs IH]; intros H; [constructor|]. rewrite r_sum_cons in H.
  pose proof (r_sum_nonneg xs Hxs). constructor; [lra|]. apply IH. lra.
Qed.
Lemma length_pos {A} (xs : list A) : xs <> [] -> 0 < INR (length xs).
Proof. intros H. destruct xs; [done|]. apply lt_0_INR. simpl. lia. Qed.
Lemma r_mean_affine (a b : R) xs : xs <> [] -> r_mean ((fun x => (x + a) * b) <$> xs) = (r_mean xs + a) * b.
Proof.
  intros H. pose proof (length_pos xs H). unfold r_mean. rewrite fmap_length, r_sum_affine. field. lra.
Qed.
Lemma r_sum_mul b xs : r_sum ((fun x => x * b) <$> xs) = r_sum xs * b.
Proof. induction xs as [|x xs IH]; [unfold r_sum; simpl; lra|]. rewrite fmap_cons, !r_sum_cons, IH. lra. Qed.
Lemma r_var_eq xs : r_var xs = r_sum ((fun x => (x - r_mean xs) * (x - r_mean xs)) <$> xs) / INR (length xs).
Proof. unfold r_var. unfold r_mean at 1. by rewrite fmap_length. Qed.
Lemma r_var_affine (a b : R) xs : xs <> [] -> r_var ((fun x => (x + a) * b) <$> xs) = r_var xs * (b * b).
Proof.
  intros H. rewrite !r_var_eq. rewrite r_mean_affine by done. rewrite <- list_fmap_compose, fmap_length.
  assert (E : (fun x => (x - (r_mean xs + a) * b) * (x - (r_mean xs + a) * b)) ∘ (fun x => (x + a) * b) <$> xs
            = (fun x => x * (b * b)) <$> ((fun x => (x - r_mean xs) * (x - r_mean xs)) <$> xs)).
  { rewrite <- list_fmap_compose. apply list_fmap_ext. intros _ x _. unfold compose. lra. }
  rewrite E, r_sum_mul. lra.
Qed.
(** A variance of zero means that all values are the same. *)
Lemma r_sum_const a n : r_sum (replicate n a) = INR n * a.
Proof. induction n as [|n IH]; [unfold r_sum; simpl; lra|]. cbn [replicate]. rewrite r_sum_cons, IH, S_INR. lra. Qed.
Lemma r_sum_sq_zero xs m : r_sum ((fun x => (x - m) * (x - m)) <$> xs) = 0 -> Forall (fun x => x = m) xs.
Proof.
  intros H. apply r_sum_zero in H.
  - apply Forall_fmap in H. eapply Forall_impl; [exact H|]. intros x Hx. unfold compose in Hx. apply Rsqr_0_uniq in Hx. lra.
  - apply Forall_fmap, Forall_forall. intros x _. apply Rle_0_sqr.
Qed.
Lemma const_mean xs a : xs <> [] -> Forall (fun x => x = a) xs -> r_mean xs = a.
Proof.
  intros Hne H. assert (E : xs = replicate (length xs) a).
  { clear Hne. induction H as [|x xs -> H IH]; [done|]. simpl. by rewrite <- IH. }
  pose proof (length_pos xs Hne). unfold r_mean. rewrite E at 1. rewrite r_sum_const. field. lra.
Qed.
Lemma const_sq xs m : Forall (fun x => x = m) xs -> r_sum ((fun x => (x - m) * (x - m)) <$> xs) = 0.
Proof. induction 1 as [|x xs -> H IH]; [done|]. rewrite fmap_cons, r_sum_cons, IH. lra. Qed.

Lemma present_cons v vs : present (v :: vs) = match v with XR r => r :: present vs | _ => present vs end.
Proof. by destruct v. Qed.
Lemma present_map (f : xr -> xr) (g : R -> R) vs : Forall finite_or_missing vs ->
  (forall r, f (XR r) = XR (g r)) -> f XNaN = XNaN -> present (f <$> vs) = g <$> present vs.
Proof.
  intros H H1 H2. induction H as [|v vs Hv Hvs IH]; [done|]. rewrite fmap_cons, !present_cons.
  destruct v; [|done|]; [rewrite H1, IH|rewrite H2]; done.
Qed.

Notation RA := real_arith.
Lemma sum_n_acc vs : forall s n, Forall finite_or_missing vs ->
  foldl (fun p v => if a_isnan RA v then p else (a_add RA p.1 v, (p.2 + 1)%Z)) (XR s, n) vs
  = (XR (s + r_sum (present vs)), (n + Z.of_nat (length (present vs)))%Z).
Proof.
  induction vs as [|v vs IH]; intros s n H.
  { simpl. unfold r_sum. simpl. f_equal; [f_equal; lra|lia]. }
  apply Forall_cons in H as [Hv H]. cbn [foldl]. rewrite present_cons. destruct v as [r|s0|]; [|done|].
  - simpl. rewrite IH by done. rewrite r_sum_cons. f_equal; [f_equal; lra|simpl; lia].
  - simpl. by rewrite IH.
Qed.
Lemma sum_n_exact vs : Forall finite_or_missing vs ->
  sum_n RA vs = (XR (r_sum (present vs)), Z.of_nat (length (present vs))).
Proof.
  intros H. etrans; [exact (sum_n_acc vs 0 0%Z H)|]. f_equal. f_equal. lra.
Qed.
Lemma mean_exact vs : Forall finite_or_missing vs ->
  mean_of RA vs = if decide (present vs = []) then XNaN else XR (r_mean (present vs)).
Proof.
  intros H. unfold mean_of. rewrite sum_n_exact by done. simpl. rewrite <- INR_IZR_INZ.
  destruct (decide (present vs = [])) as [E|E].
  - rewrite E. simpl. destruct (Req_EM_T 0 0); [|done]. unfold r_sum. simpl. unfold x_sign.
    destruct (Rlt_dec 0 0); [lra|]. done.
  - pose proof (length_pos _ E). destruct (Req_EM_T _ 0); [lra|]. done.
Qed.
Lemma square_acc m vs : forall s, Forall finite_or_missing vs ->
  foldl (fun s v => if a_isnan RA v then s else a_add RA s (a_mul RA (a_sub RA v (XR m)) (a_sub RA v (XR m)))) (XR s) vs
  = XR (s + r_sum ((fun x => (x - m) * (x - m)) <$> present vs)).
Proof.
  induction vs as [|v vs IH]; intros s H.
  { simpl. unfold r_sum. simpl. f_equal. lra. }
  apply Forall_cons in H as [Hv H]. cbn [foldl]. rewrite present_cons. destruct v as [r|s0|]; [|done|].
  - rewrite fmap_cons, r_sum_cons. simpl. rewrite IH by done. f_equal. ring.
  - simpl. by rewrite IH.
Qed.
Lemma square_exact m vs : Forall finite_or_missing vs ->
  square_sum RA (XR m) vs = XR (r_sum ((fun x => (x - m) * (x - m)) <$> present vs)).
Proof. intros H. etrans; [exact (square_acc m vs 0 H)|]. f_equal. lra. Qed.
Lemma square_none x vs : Forall finite_or_missing vs -> present vs = [] -> square_sum RA x vs = XR 0.
Proof.
  unfold square_sum. intros H. induction H as [|v vs Hv Hvs IH]; [done|]. rewrite present_cons.
  destruct v; [done|done|]. intros E. simpl in *. by apply IH.
Qed.

(** The scale: the square root of n / sum of squares, or of n+1 if that sum is 0. *)
Definition r_scale (xs : list R) : R :=
  if Req_EM_T (r_var xs) 0 then R_sqrt.sqrt (INR (length xs) + 1) else R_sqrt.sqrt (/ r_var xs).
Lemma r_var_sum xs : xs <> [] -> r_sum ((fun x => (x - r_mean xs) * (x - r_mean xs)) <$> xs) = r_var xs * INR (length xs).
Proof. intros H. pose proof (length_pos xs H). rewrite r_var_eq. field. lra. Qed.
Lemma r_var_nonneg xs : xs <> [] -> 0 <= r_var xs.
Proof.
  intros H. pose proof (length_pos xs H). rewrite r_var_eq.
  apply Rle_mult_inv_pos; [|done]. apply r_sum_nonneg, Forall_fmap, Forall_forall. intros x _. apply Rle_0_sqr.
Qed.
Lemma scale_exact vs : Forall finite_or_missing vs -> present vs <> [] ->
  scale_of RA (square_sum RA (mean_of RA vs) vs) (sum_n RA vs).2 = XR (r_scale (present vs)).
Proof.
  intros H Hne. rewrite mean_exact by done. rewrite decide_False by done. rewrite square_exact by done.
  rewrite sum_n_exact by done. cbn [snd]. rewrite r_var_sum by done. pose proof (length_pos _ Hne) as Hp.
  pose proof (r_var_nonneg _ Hne) as Hv. unfold scale_of, r_scale. simpl.
  destruct (Req_EM_T (r_var (present vs)) 0) as [E|E].
  - rewrite E. destruct (Req_EM_T (0 * INR (length (present vs))) 0); [|lra]. 
    destruct (Req_EM_T (0 * INR (length (present vs)) + 1) 0); [lra|]. simpl.
    rewrite plus_IZR, <- INR_IZR_INZ.
    replace ((INR (length (present vs)) + 1) / (0 * INR (length (present vs)) + 1)) with (INR (length (present vs)) + 1) by (field; lra).
    destruct (Rlt_dec _ 0); [lra|done].
  - destruct (Req_EM_T (r_var (present vs) * INR (length (present vs))) 0) as [E'|E'].
    { exfalso. apply Rmult_integral in E' as [E'|E']; lra. }
    destruct (Req_EM_T (r_var (present vs) * INR (length (present vs))) 0); [done|].
    rewrite <- INR_IZR_INZ.
    replace (INR (length (present vs)) / (r_var (present vs) * INR (length (present vs)))) with (/ r_var (present vs)) by (field; lra).
    simpl. assert (0 < / r_var (present vs)) by (apply Rinv_0_lt_compat; lra).
    destruct (Rlt_dec _ 0); [lra|done].
Qed.
Lemma r_scale_sq xs : xs <> [] -> r_var xs <> 0 -> r_var xs * (r_scale xs * r_scale xs) = 1.
Proof.
  intros Hne H. pose proof (r_var_nonneg xs Hne). unfold r_scale. destruct (Req_EM_T (r_var xs) 0); [done|].
  assert (0 < / r_var xs) by (apply Rinv_0_lt_compat; lra). rewrite sqrt_sqrt by lra. field. lra.
Qed.
Lemma r_scale_pos xs : xs <> [] -> 0 < r_scale xs.
Proof.
  intros Hne. pose proof (length_pos xs Hne). pose proof (r_var_nonneg xs Hne). unfold r_scale. destruct (Req_EM_T (r_var xs) 0).
  - apply sqrt_lt_R0. lra.
  - apply sqrt_lt_R0. apply Rinv_0_lt_compat. lra.
Qed.
(** Variance zero: all values equal. *)
Definition all_equal (xs : list R) : Prop := forall x y, x ∈ xs -> y ∈ xs -> x = y.
Lemma r_var_0 xs : xs <> [] -> r_var xs = 0 <-> all_equal xs.
Proof.
  intros Hne. pose proof (length_pos xs Hne). split.
  - intros E. assert (E2 : r_sum ((fun x => (x - r_mean xs) * (x - r_mean xs)) <$> xs) = 0) by (rewrite r_var_sum by done; nra).
    apply r_sum_sq_zero in E2. rewrite Forall_forall in E2. intros x y Hx Hy. by rewrite (E2 x Hx), (E2 y Hy).
  - intros Hc. destruct xs as [|a xs]; [done|]. assert (Forall (fun x => x = a) (a :: xs)) as HF.
    { apply Forall_forall. intros x Hx. apply Hc; [done|]. by apply elem_of_cons; left. }
    rewrite r_var_eq, (const_mean _ a) by done. rewrite const_sq by done. unfold Rdiv. apply Rmult_0_l.
Qed.

(** min and max *)
Lemma min_max_acc vs : forall mn mx, Forall finite_or_missing vs -> 
  exists mn' mx', foldl (fun p v => (if a_lt RA v p.1 then v else p.1, if a_lt RA p.2 v then v else p.2)) (XR mn, XR mx) vs = (XR mn', XR mx') /\
    mn' ∈ mn :: present vs /\ mx' ∈ mx :: present vs /\ Forall (fun x => mn' <= x) (mn :: present vs) /\ Forall (fun x => x <= mx') (mx :: present vs).
Proof.
  induction vs as [|v vs IH]; intros mn mx H.
  { exists mn, mx. split; [done|]. repeat split; try (apply elem_of_cons; by left); repeat constructor; lra. }
  apply Forall_cons in H as [Hv H]. cbn [foldl]. rewrite present_cons. destruct v as [r|s0|]; [|done|].
  - simpl. destruct (IH (if Rlt_dec r mn then r else mn) (if Rlt_dec mx r then r else mx) H) as (mn' & mx' & E & H1 & H2 & H3 & H4).
    exists mn', mx'. split.
    { rewrite <- E. f_equal. destruct (Rlt_dec r mn), (Rlt_dec mx r); done. }
    apply Forall_cons in H3 as [H3a H3]. apply Forall_cons in H4 as [H4a H4].
    split; [destruct (Rlt_dec r mn); apply elem_of_cons in H1; set_solver|].
    split; [destruct (Rlt_dec mx r); apply elem_of_cons in H2; set_solver|].
    split; (constructor; [|constructor]); try done; destruct (Rlt_dec r mn), (Rlt_dec mx r); lra.
  - simpl. by apply IH.
Qed.
Lemma min_max_exact vs : Forall finite_or_missing vs -> present vs <> [] ->
  exists mn mx, min_max RA vs = (XR mn, XR mx) /\ mn ∈ present vs /\ mx ∈ present vs /\
    Forall (fun x => mn <= x <= mx) (present vs).
Proof.
  unfold min_max. intros H Hne. induction H as [|v vs Hv Hvs IH]; [done|]. cbn [foldl]. rewrite present_cons in *.
  destruct v as [r|s0|]; [|done|].
  - simpl. destruct (min_max_acc vs r r Hvs) as (mn & mx & E & H1 & H2 & H3 & H4). exists mn, mx.
    split; [exact E|]. split; [done|]. split; [done|]. apply Forall_forall. intros x Hx.
    rewrite Forall_forall in H3, H4. split; [by apply H3|by apply H4].
  - simpl. by apply IH.
Qed.
