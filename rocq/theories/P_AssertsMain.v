(** The assertions of the test suite: C93. *)
From Coq Require Import Reals Psatz.
From Flocq Require Import Core BinarySingleNaN Relative.
From Verif Require Import M_Asserts.
From Verif Require Import P_Exec.
From stdpp Require Import strings list.
From Verif Require Import P_Float P_FloatEx P_Strconv Spec_Json Spec_Strconv Spec_Asserts M_Asserts.
Local Open Scope nat_scope.
Local Instance Hprec'' : FLX.Prec_gt_0 53 := eq_refl.
Local Instance Hmax'' : Prec_lt_emax 53 1024 := eq_refl.

Lemma report_asserts b P : (b = true <-> ~ P) -> (b = false <-> P) -> asserts (report b) P.
Proof. intros H1 H2. unfold asserts, report. destruct b; split; intros H; try done; [by destruct (proj1 H1 eq_refl)|by destruct H; apply H2]. Qed.
Lemma report_eq (b : bool) P : (b = true <-> P) -> asserts (report (negb b)) P.
Proof. intros H. apply report_asserts; destruct b; simpl; intuition congruence. Qed.
Lemma report_neq (b : bool) P : (b = true <-> P) -> asserts (report b) (~ P).
Proof. intros H. apply report_asserts; destruct b; simpl; intuition congruence. Qed.

Lemma C93_scalars_main :
  (forall actual expected, asserts (assert_string_equals actual expected) (actual = expected)) /\
  (forall actual expected, asserts (assert_string_not_equals actual expected) (actual <> expected)) /\
  (forall actual expected, asserts (assert_int_equals actual expected) (actual = expected)) /\
  (forall actual expected, asserts (assert_int_not_equals actual expected) (actual <> expected)) /\
  (forall value, asserts (assert_true value) (value = true)) /\ (forall value, asserts (assert_false value) (value = false)) /\
  (forall (E : Type) (err : option E), asserts (assert_no_error err) (err = None)).
Proof.
  split_and!.
  - intros. apply report_eq, bool_decide_eq_true.
  - intros. apply report_neq, bool_decide_eq_true.
  - intros. apply report_eq, bool_decide_eq_true.
  - intros. apply report_neq, bool_decide_eq_true.
  - intros v. apply report_eq. done.
  - intros v. unfold assert_false. replace v with (negb (negb v)) at 1 by (by destruct v). apply report_eq. by destruct v.
  - intros E err. apply report_asserts.
    + rewrite bool_decide_eq_true. destruct err as [x|]; split; [done|by eexists|intros [? ?]; done|by intros []].
    + rewrite bool_decide_eq_false. destruct err as [x|]; split; [intros []; by eexists|done|done|intros _ [? ?]; done].
Qed.

Lemma all_equal_iff {A} (eqb : A -> A -> bool) l k : length l = length k -> all_equal eqb l k = true <-> Forall2 (fun x y => eqb x y = true) l k.
Proof.
  revert k. induction l as [|x l IH]; intros [|y k] H; simpl in *; try done.
  rewrite andb_true_iff, Forall2_cons, IH by lia. done.
Qed.
Lemma deep_equal_iff {A} (eqb : A -> A -> bool) (He : forall x y, eqb x y = true <-> x = y) s1 s2 : coherent s1 s2 ->
  deep_equal eqb s1 s2 = true <-> equal_slices s1 s2.
Proof.
  intros Hc. unfold equal_slices, nil_slice. destruct s1 as [|p l], s2 as [|q k]; simpl in *; [done|split; [done|naive_solver]|split; [done|naive_solver]|].
  rewrite andb_true_iff, orb_true_iff, !bool_decide_eq_true. split.
  - intros [Hl [->|H]]; (split; [done|]); [by apply Hc|]. apply all_equal_iff in H; [|done].
    clear -H He. induction H as [|x y l k H1 H2 IH]; [done|]. apply He in H1. by subst.
  - intros [_ ->]. split; [done|]. right. apply all_equal_iff; [done|]. clear -He. induction k; constructor; [by apply He|done].
Qed.
Lemma C93_slices_main :
  (forall actual expected, coherent actual expected -> asserts (assert_string_slice_equals actual expected true) (equal_slices actual expected)) /\
  (forall actual expected, coherent actual expected -> asserts (assert_int_slice_equals actual expected) (equal_slices actual expected)) /\
  (forall actual expected, coherent actual expected -> asserts (assert_int_slice_not_equals actual expected) (~ equal_slices actual expected)) /\
  (forall actual expected, coherent actual expected -> asserts (assert_bool_slice_equals actual expected) (equal_slices actual expected)).
Proof.
  split_and!; intros a e Hc.
  - apply report_eq, deep_equal_iff; [intros; apply bool_decide_eq_true|done].
  - apply report_eq, deep_equal_iff; [intros; apply bool_decide_eq_true|done].
  - apply report_neq, deep_equal_iff; [intros; apply bool_decide_eq_true|done].
  - apply report_eq, deep_equal_iff; [intros; apply bool_decide_eq_true|done].
Qed.

Lemma to_string_set_lookup l s b : to_string_set l !! s = Some b <-> b = true /\ s ∈ l.
Proof.
  unfold to_string_set. assert (G : forall m, foldl (fun (m : gmap string bool) s => <[s := true]> m) m l !! s = Some b <-> (b = true /\ s ∈ l) \/ (s ∉ l /\ m !! s = Some b)).
  { induction l as [|x l IH]; intros m; simpl.
    - split; [intros H; right; split; [by apply not_elem_of_nil|done]|]. intros [[_ H%elem_of_nil]|[_ H]]; done.
    - rewrite IH, elem_of_cons. destruct (decide (s = x)) as [->|Hx].
      + rewrite lookup_insert. destruct (decide (x ∈ l)) as [Hi|Hi].
        * split; [intros [[? ?]|[? ?]]; [left; tauto|done]|intros [[? ?]|[Hn _]]; [left; tauto|destruct Hn; by left]].
        * split; [intros [[? ?]|[_ [= <-]]]; left; tauto|]. intros [[-> _]|[Hn _]]; [by right|destruct Hn; by left].
      + rewrite lookup_insert_ne by done. split; [intros [[? ?]|[? ?]]; [left; tauto|right; split; [intros [?|?]; done|done]]|].
        intros [[? [?|?]]|[Hn ?]]; [done|left; done|right; split; [|done]]. intros ?. apply Hn. by right. }
  rewrite G, lookup_empty. naive_solver.
Qed.
Lemma deep_equal_map_iff m1 m2 : deep_equal_map m1 m2 = true <-> m1 = m2.
Proof.
  unfold deep_equal_map. rewrite andb_true_iff, !bool_decide_eq_true. split.
  - intros [Hs Hf].
    assert (Hp : map_to_list m1 ≡ₚ map_to_list m2).
    { apply submseteq_Permutation_length_eq.
      2: { apply NoDup_submseteq; [apply NoDup_map_to_list|]. intros [k b] H%elem_of_map_to_list. apply elem_of_map_to_list. by apply Hf. }
      unfold size, map_size in Hs. lia. }
    by apply map_to_list_inj in Hp.
  - intros ->. split; [done|]. by intros k b.
Qed.
Lemma C93_unordered_main :
  (forall actual expected, asserts (assert_string_slice_equals actual expected false) (forall s, s ∈ gs_list actual <-> s ∈ gs_list expected)) /\
  (forall l ord, ord ≡ₚ map_to_list (to_string_set l) -> NoDup (string_set_keys ord) /\ forall s, s ∈ string_set_keys ord <-> s ∈ l).
Proof.
  split.
  - intros a e. apply report_eq. rewrite deep_equal_map_iff. split.
    + intros H s. pose proof (to_string_set_lookup (gs_list a) s true) as Ha. rewrite H, to_string_set_lookup in Ha. tauto.
    + intros H. apply map_eq. intros s. destruct (to_string_set (gs_list a) !! s) as [b|] eqn:E.
      * symmetry. apply to_string_set_lookup. apply to_string_set_lookup in E. by rewrite <- H.
      * symmetry. destruct (to_string_set (gs_list e) !! s) as [b|] eqn:E2; [|done]. apply to_string_set_lookup in E2. rewrite <- H in E2.
        apply to_string_set_lookup in E2. congruence.
  - intros l ord Ho. unfold string_set_keys. split; [rewrite Ho; apply NoDup_fst_map_to_list|].
    intros s. rewrite Ho, elem_of_list_fmap. split.
    + intros ([s' b] & -> & H%elem_of_map_to_list). by apply to_string_set_lookup in H as [_ ?].
    + intros H. exists (s, true). split; [done|]. apply elem_of_map_to_list, to_string_set_lookup. done.
Qed.

(** ** Floats *)
Lemma tol_fin : fin64 tolerance.
Proof. by split. Qed.
Lemma div_round x y : fin64 x -> fin64 y -> f64_R y <> 0%R -> (Rabs (rnd64 (f64_R x / f64_R y)) < bpow radix2 1024)%R ->
  fin64 (f64_div x y) /\ f64_R (f64_div x y) = rnd64 (f64_R x / f64_R y).
Proof.
  intros [Vx Fx] [Vy Fy] Hz Ho. rewrite (f64_div_equiv x y Vx Vy).
  pose proof (Bdiv_correct 53 1024 _ _ mode_NE (SF2B x Vx) (SF2B y Vy)) as H. rewrite !is_finite_SF2B, !B2R_SF2B in H. specialize (H Hz).
  change (round radix2 fexp64 (round_mode mode_NE) (SF2R radix2 x / SF2R radix2 y)) with (rnd64 (f64_R x / f64_R y)) in H.
  rewrite Rlt_bool_true in H by done. destruct H as (H1 & H2 & _). apply fin_of; [exact H1|]. etrans; [exact H2|done].
Qed.
Lemma add_round x y : fin64 x -> fin64 y ->
  ((Rabs (rnd64 (f64_R x + f64_R y)) < bpow radix2 1024)%R -> fin64 (f64_add x y) /\ f64_R (f64_add x y) = rnd64 (f64_R x + f64_R y)) /\
  (~ (Rabs (rnd64 (f64_R x + f64_R y)) < bpow radix2 1024)%R -> is_finite_SF (f64_add x y) = false).
Proof.
  intros [Vx Fx] [Vy Fy]. rewrite (f64_add_equiv x y Vx Vy).
  pose proof (Bplus_correct 53 1024 _ _ mode_NE (SF2B x Vx) (SF2B y Vy)) as H. rewrite !is_finite_SF2B, !B2R_SF2B in H. specialize (H Fx Fy).
  change (round radix2 fexp64 (round_mode mode_NE) (SF2R radix2 x + SF2R radix2 y)) with (rnd64 (f64_R x + f64_R y)) in H. split; intros Ho.
  - rewrite Rlt_bool_true in H by done. destruct H as (H1 & H2 & _). by apply fin_of.
  - rewrite Rlt_bool_false in H by lra. destruct H as [H _]. etrans; [exact (f_equal is_finite_SF H)|done].
Qed.
Lemma sub_round x y : fin64 x -> fin64 y -> (Rabs (rnd64 (f64_R x - f64_R y)) < bpow radix2 1024)%R ->
  fin64 (f64_sub x y) /\ f64_R (f64_sub x y) = rnd64 (f64_R x - f64_R y).
Proof.
  intros [Vx Fx] [Vy Fy] Ho. rewrite (f64_sub_equiv x y Vx Vy).
  pose proof (Bminus_correct 53 1024 _ _ mode_NE (SF2B x Vx) (SF2B y Vy)) as H. rewrite !is_finite_SF2B, !B2R_SF2B in H. specialize (H Fx Fy).
  change (round radix2 fexp64 (round_mode mode_NE) (SF2R radix2 x - SF2R radix2 y)) with (rnd64 (f64_R x - f64_R y)) in H.
  rewrite Rlt_bool_true in H by done. destruct H as (H1 & H2 & _). by apply fin_of.
Qed.
Lemma rnd_le x y : (x <= y)%R -> (rnd64 x <= rnd64 y)%R.
Proof. apply round_le; apply _. Qed.
Lemma rnd_opp x : rnd64 (- x) = (- rnd64 x)%R.
Proof. apply round_NE_opp. Qed.
Lemma rnd_1 : rnd64 1 = 1%R.
Proof. exact (small_int_format 1 ltac:(lia)). Qed.
Lemma tol_R : f64_R tolerance = rnd64 (1 / 100) /\ (1 / 100 <= f64_R tolerance <= 1 / 100 + / 2 ^ 60)%R.
Proof.
  split.
  - destruct (f64_of_Z_exact 1 ltac:(lia)) as (A1 & A2 & A3). destruct (f64_of_Z_exact 100 ltac:(lia)) as (B1 & B2 & B3).
    assert (E : f64_one = f64_of_Z 1) by (by vm_compute). unfold tolerance. rewrite E.
    destruct (div_round (f64_of_Z 1) (f64_of_Z 100)) as [_ R]; [done|done|rewrite B1; lra| |].
    + rewrite A1, B1. rewrite Rabs_pos_eq by (rewrite <- (round_0 radix2 fexp64 ZnearestE); apply rnd_le; lra).
      apply Rle_lt_trans with 1%R; [rewrite <- rnd_1 at 2; apply rnd_le; lra|]. change 1%R with (bpow radix2 0). by apply bpow_lt.
    + by rewrite R, A1, B1.
  - replace tolerance with (S754_finite false 5764607523034235 (-59)) by (by vm_compute). unfold f64_R, SF2R, F2R. simpl. lra.
Qed.
Lemma max_fin : fin64 (S754_finite false 9007199254740991 971).
Proof. by split. Qed.
Lemma f64_R_max x : fin64 x -> (Rabs (f64_R x) <= f64_R (S754_finite false 9007199254740991 971))%R.
Proof.
  intros [V F]. pose proof (abs_B2R_le_emax_minus_prec 53 1024 _ (SF2B x V)) as H. rewrite B2R_SF2B in H. eapply Rle_trans; [exact H|].
  apply Req_le. unfold f64_R, SF2R, F2R. cbn [cond_Zopp Defs.Fnum Defs.Fexp]. change (1024 - 53)%Z with 971%Z.
  replace 1024%Z with (53 + 971)%Z by done. rewrite bpow_plus. replace (bpow radix2 53) with (IZR 9007199254740992) by (simpl; lra). lra.
Qed.
Lemma plus_tol x : fin64 x -> (Rabs (rnd64 (f64_R x + f64_R tolerance)) < bpow radix2 1024)%R /\ (Rabs (rnd64 (f64_R x - f64_R tolerance)) < bpow radix2 1024)%R.
Proof.
  intros Fx. set (M := S754_finite false 9007199254740991 971).
  assert (HM : (Rabs (rnd64 (f64_R M + f64_R tolerance)) < bpow radix2 1024)%R).
  { destruct (Rlt_le_dec (Rabs (rnd64 (f64_R M + f64_R tolerance))) (bpow radix2 1024)) as [H|H]; [done|exfalso].
    destruct (add_round M tolerance max_fin tol_fin) as [_ H2]. specialize (H2 ltac:(lra)). by vm_compute in H2. }
  pose proof (f64_R_max x Fx) as Hx. fold M in Hx. destruct tol_R as [_ Ht].
  assert (G : forall r, (Rabs r <= f64_R M + f64_R tolerance)%R -> (Rabs (rnd64 r) < bpow radix2 1024)%R).
  { intros r Hr. eapply Rle_lt_trans; [|exact HM]. apply Rabs_le_inv in Hr.
    assert (0 <= f64_R M + f64_R tolerance)%R by lra.
    rewrite (Rabs_pos_eq (rnd64 (f64_R M + _))) by (rewrite <- (round_0 radix2 fexp64 ZnearestE); by apply rnd_le).
    apply Rabs_le. rewrite <- rnd_opp. split; apply rnd_le; lra. }
  apply Rabs_le_inv in Hx. split; apply G, Rabs_le; lra.
Qed.
Lemma finite_fin x : finite x <-> is_finite_SF x = true.
Proof. unfold finite. destruct x; simpl; split; try done; try (intros [H1 H2]; congruence); by intros _. Qed.
Lemma lt_false_le x y : (Rlt_bool x y = false <-> y <= x)%R.
Proof. case Rlt_bool_spec; intros H; split; try done; lra. Qed.
Lemma C93_float_main : forall actual expected : f64, is_f64 actual -> is_f64 expected ->
  asserts (assert_float_equals actual expected) (near actual expected).
Proof.
  intros a e Ha He.
  assert (G : f64_lt a (f64_sub e tolerance) || f64_lt (f64_add e tolerance) a = false <-> near a e).
  { unfold near. rewrite !finite_fin. destruct (is_finite_SF a) eqn:Fa, (is_finite_SF e) eqn:Fe.
    - assert (F : fin64 e) by done. destruct (plus_tol e F) as [P1 P2].
      destruct (proj1 (add_round e tolerance F tol_fin) P1) as [[A1 A2] A3]. destruct (sub_round e tolerance F tol_fin P2) as [[B1 B2] B3].
      rewrite orb_false_iff, !f64_lt_R, A3, B3 by done. destruct tol_R as [-> _]. rewrite !lt_false_le.
      change (round_even (1 / 100)) with (rnd64 (1 / 100)). unfold real_of, f64_R, round_even. fold (SF2R radix2 a) (SF2R radix2 e).
      unfold rnd64. change fexp64 with (FLT_exp (-1074) 53). split; [intros H; left; tauto|]. intros [H|[H _]]; [tauto|]. destruct H. done.
    - destruct e as [| [] | |]; try done; destruct a as [| | |sa ma ea]; try done; simpl; (split; [intros H|intros H]; try done);
        try (right; split; [by intros [_ ?]|tauto]); try (destruct H as [(_ & ? & _)|[_ [?|[?|?]]]]; done).
    - destruct a as [| [] | |]; try done; (split; [intros H|intros H]).
      all: try (right; split; [by intros [? _]|]; tauto).
      all: try (exfalso; revert H; destruct (plus_tol e (conj He Fe)) as [P1 P2]; destruct (proj1 (add_round e tolerance (conj He Fe) tol_fin) P1) as [[A1 A2] A3];
        destruct (sub_round e tolerance (conj He Fe) tol_fin P2) as [[B1 B2] B3]; destruct (f64_add e tolerance), (f64_sub e tolerance); done).
      all: try (destruct H as [(? & _)|[_ [?|[?|?]]]]; subst; done).
      destruct (f64_add e tolerance), (f64_sub e tolerance); done.
    - destruct a as [| [] | |], e as [| [] | |]; try done; simpl; split; intros H; try done; try (right; split; [by intros [? _]|tauto]);
        destruct H as [(? & _)|[_ [?|[?|?]]]]; done. }
  unfold assert_float_equals. apply report_asserts; [|exact G]. rewrite <- G. by destruct (_ || _).
Qed.
Lemma C93_tolerance_main : forall actual expected : f64, is_f64 actual -> is_f64 expected -> finite actual -> finite expected ->
  (Rabs (real_of actual - real_of expected) <= 1 / 100 -> near actual expected)%R /\
  (near actual expected -> Rabs (real_of actual - real_of expected) <= 1 / 100 + (Rabs (real_of expected) + 1) / 2 ^ 52)%R.
Proof.
  intros a e Ha He Fa Fe. pose proof (proj1 (finite_fin _) Fa) as Fa'. pose proof (proj1 (finite_fin _) Fe) as Fe'. destruct tol_R as [T1 T2].
  assert (T3 : round_even (1 / 100) = f64_R tolerance) by (symmetry; exact T1).
  assert (Ra : round_even (real_of a) = real_of a) by (by destruct (f64_format a Ha Fa')).
  split.
  - intros H. left. split; [done|]. split; [done|]. rewrite T3. apply Rabs_le_inv in H. rewrite <- Ra. split; apply rnd_le; lra.
  - intros [(_ & _ & H)|[H _]]; [|by destruct H]. rewrite T3 in H.
    assert (G : forall r, (Rabs (round_even r - r) <= (Rabs r + 1) / 2 ^ 53)%R).
    { intros r. destruct (error_N_FLT radix2 (-1074)%Z 53%Z eq_refl (fun z => negb (Z.even z)) r) as (eps & eta & E1 & E2 & _ & E3).
      unfold round_even. rewrite E3. replace (r * (1 + eps) + eta - r)%R with (r * eps + eta)%R by ring.
      eapply Rle_trans; [apply Rabs_triang|]. rewrite Rabs_mult.
      assert (B1 : (Rabs eps <= / 2 ^ 53)%R) by (eapply Rle_trans; [exact E1|]; simpl; lra).
      assert (B2 : (Rabs eta <= / 2 ^ 53)%R).
      { eapply Rle_trans; [exact E2|]. apply Rle_trans with (bpow radix2 (-53)); [|simpl; lra].
        apply Rle_trans with (bpow radix2 (-1074)); [|by apply bpow_le]. pose proof (bpow_gt_0 radix2 (-1074)). lra. }
      pose proof (Rabs_pos r). assert (Rabs r * Rabs eps <= Rabs r * / 2 ^ 53)%R by (by apply Rmult_le_compat_l). lra. }
    pose proof (G (real_of e - f64_R tolerance)%R) as G1. pose proof (G (real_of e + f64_R tolerance)%R) as G2.
    apply Rabs_le_inv in G1, G2. pose proof (Rabs_triang (real_of e) (f64_R tolerance)) as T4. pose proof (Rabs_triang (real_of e) (- f64_R tolerance)) as T5.
    rewrite Rabs_Ropp in T5. rewrite (Rabs_pos_eq (f64_R tolerance)) in T4, T5 by lra. change (real_of e + - f64_R tolerance)%R with (real_of e - f64_R tolerance)%R in T5.
    set (r := Rabs (real_of e)) in *. set (r1 := Rabs (real_of e + f64_R tolerance)) in *. set (r2 := Rabs (real_of e - f64_R tolerance)) in *.
    pose proof (Rabs_pos (real_of e)) as Hr. fold r in Hr. apply Rabs_le. lra.
Qed.

Lemma near_eqb x y : is_f64 x -> is_f64 y -> SFeqb x y = true -> near x y.
Proof.
  intros Hx Hy H. destruct (is_finite_SF x) eqn:Fx, (is_finite_SF y) eqn:Fy.
  - apply C93_tolerance_main; [done|done|by apply finite_fin|by apply finite_fin|].
    pose proof (Beqb_correct 53 1024 (SF2B x Hx) (SF2B y Hy)) as B. rewrite !is_finite_SF2B, !B2R_SF2B in B. specialize (B Fx Fy).
    unfold Beqb in B. rewrite !B2SF_SF2B in B. rewrite B in H. unfold real_of. revert H. case Req_bool_spec; [|done]. intros -> _.
    rewrite Rminus_diag_eq, Rabs_R0 by done. lra.
  - destruct x, y as [| [] | |]; done.
  - destruct x as [| [] | |], y; done.
  - right. rewrite !finite_fin, Fx. split; [by intros [? _]|]. destruct x as [| [] | |], y as [| [] | |]; try done; tauto.
Qed.
Lemma near_refl x : is_f64 x -> near x x.
Proof.
  intros Hx. destruct (is_finite_SF x) eqn:Fx.
  - apply C93_tolerance_main; [done|done|by apply finite_fin|by apply finite_fin|]. rewrite Rminus_diag_eq, Rabs_R0 by done. lra.
  - right. rewrite !finite_fin, Fx. split; [by intros [? _]|]. tauto.
Qed.
Lemma float_errors_zero l k : Forall is_f64 l -> Forall is_f64 k -> length l = length k -> float_errors l k = 0 <-> Forall2 near l k.
Proof.
  revert k. induction l as [|x l IH]; intros [|y k] Hl Hk He; simpl in *; try done.
  apply Forall_cons in Hl as [Hx Hl]. apply Forall_cons in Hk as [Hy Hk]. rewrite Forall2_cons, <- IH by (done || lia).
  destruct (C93_float_main x y Hx Hy) as [H1 H2]. split.
  - intros H. split; [|lia]. destruct (f64_lt x (f64_sub y tolerance) || f64_lt (f64_add y tolerance) x) eqn:E.
    + unfold assert_float_equals in H. rewrite E in H. simpl in H. lia.
    + pose proof (C93_float_main x y Hx Hy) as [_ H3]. unfold assert_float_equals in H3. rewrite E in H3. simpl in H3.
      destruct (decide (is_finite_SF x = true /\ is_finite_SF y = true)) as [[Fx Fy]|Hn].
      * destruct (Rle_lt_dec (round_even (real_of y - round_even (1 / 100))) (real_of x)) as [L1|L1].
        -- destruct (Rle_lt_dec (real_of x) (round_even (real_of y + round_even (1 / 100)))) as [L2|L2].
           ++ left. rewrite !finite_fin. done.
           ++ exfalso. assert (~ near x y) as Hnn by (intros [(_ & _ & ? & ?)|[Hf _]]; [lra|rewrite !finite_fin in Hf; tauto]). by specialize (H3 Hnn).
        -- exfalso. assert (~ near x y) as Hnn by (intros [(_ & _ & ? & ?)|[Hf _]]; [lra|rewrite !finite_fin in Hf; tauto]). by specialize (H3 Hnn).
      * right. rewrite !finite_fin. split; [done|]. destruct (decide (x = S754_nan)); [tauto|]. destruct (decide (y = S754_nan)); [tauto|]. destruct (decide (x = y)); [tauto|].
        exfalso. assert (~ near x y) as Hnn by (intros [(Hf & Hf' & _)|[_ [?|[?|?]]]]; [rewrite finite_fin in Hf, Hf'; tauto|done..]). by specialize (H3 Hnn).
  - intros [H H']. rewrite (H1 H), H'. done.
Qed.
Lemma C93_float_slice_main : forall actual expected : gslice f64, Forall is_f64 (gs_list actual) -> Forall is_f64 (gs_list expected) -> coherent actual expected ->
  let r := assert_float_slice_equals actual expected in
  (* the test goes on without errors *)
  (r.2 = 0 <-> Forall2 near (gs_list actual) (gs_list expected)) /\
  (* what is returned *)
  (r.1 = true <-> (nil_slice actual <-> nil_slice expected) /\
     (gs_list actual = gs_list expected /\ (exists p l, actual = GSlice p l /\ expected = GSlice p l) \/
      Forall2 (fun x y => SFeqb x y = true) (gs_list actual) (gs_list expected))).
Proof.
  intros a e Ha He Hc r.
  assert (HD : deep_equal (fun x y => SFeqb x y) a e = true <-> (nil_slice a <-> nil_slice e) /\
     (gs_list a = gs_list e /\ (exists p l, a = GSlice p l /\ e = GSlice p l) \/ Forall2 (fun x y => SFeqb x y = true) (gs_list a) (gs_list e))).
  { unfold nil_slice. destruct a as [|p l], e as [|q k]; simpl.
    - split; [intros _; split; [done|]; right; constructor|done].
    - split; [done|]. intros [[H _] _]. by specialize (H eq_refl).
    - split; [done|]. intros [[_ H] _]. by specialize (H eq_refl).
    - rewrite andb_true_iff, orb_true_iff, !bool_decide_eq_true. split.
      + intros [Hl H]. split; [done|]. destruct H as [->|H]; [|right; by apply all_equal_iff]. left. simpl in Hc. rewrite (Hc eq_refl Hl). eauto.
      + intros [_ [[-> (p' & l' & E1 & E2)]|H]]; [injection E1 as -> <-; injection E2 as ->; by split; [|left]|].
        pose proof (Forall2_length _ _ _ H). split; [done|right]. by apply all_equal_iff. }
  subst r. unfold assert_float_slice_equals. destruct (deep_equal _ a e) eqn:E.
  - simpl. split; [|by rewrite <- HD]. split; [intros _|done]. destruct (proj1 HD eq_refl) as [_ [[H _]|H]].
    + rewrite H. clear -He. induction (gs_list e); constructor; apply Forall_cons in He as [? ?]; [by apply near_refl|auto].
    + clear -H Ha He. induction H; constructor; apply Forall_cons in Ha as [? ?]; apply Forall_cons in He as [? ?]; [by apply near_eqb|auto].
  - simpl. rewrite <- HD. split; [|done]. case_decide as Hl.
    + split; [done|]. intros H%Forall2_length. done.
    + apply float_errors_zero; [done|done|]. destruct (decide (length (gs_list a) = length (gs_list e))); [done|]. by destruct Hl.
Qed.

(** ** Where the assertions are weaker than they look *)
Lemma C93_check_main :
  is_f64 (f64_div f64_one (f64_of_Z 128)) /\ near (f64_div f64_one (f64_of_Z 128)) f64_zero /\ ~ near (f64_div f64_one (f64_of_Z 64)) f64_zero /\
  asserts (assert_string_slice_equals (GSlice 1 ["a"; "b"]) (GSlice 2 ["b"; "a"]) false) True /\
  asserts (assert_string_slice_equals (GSlice 1 ["a"; "b"]) (GSlice 2 ["b"; "a"]) true) False /\
  asserts (assert_int_slice_equals (GSlice 1 [1; 2]%Z) (GSlice 2 [1; 2]%Z)) True.
Proof.
  assert (N : near (f64_div f64_one (f64_of_Z 128)) f64_zero).
  { destruct (C93_float_main (f64_div f64_one (f64_of_Z 128)) f64_zero eq_refl eq_refl) as [_ H].
    assert (E : float_errors [f64_div f64_one (f64_of_Z 128)] [f64_zero] = 0) by (by vm_compute).
    apply float_errors_zero in E; [by inversion E|by repeat constructor|by repeat constructor|done]. }
  split; [done|]. split; [done|]. split.
  { intros H. destruct (C93_float_main (f64_div f64_one (f64_of_Z 64)) f64_zero eq_refl eq_refl) as [H1 _]. specialize (H1 H). by vm_compute in H1. }
  split; [|split]; split; intros H; try done; by vm_compute.
Qed.
(** NaN is accepted for any number. *)
Lemma C93_nan_refuted_main : exists actual expected : f64, is_f64 actual /\ is_f64 expected /\ actual <> expected /\ assert_float_equals actual expected = (true, 0) /\ assert_float_equals expected actual = (true, 0).
Proof. exists S754_nan, f64_one. by vm_compute. Qed.
(** Repetitions are ignored without order. *)
Lemma C93_repeated_refuted_main : exists actual expected : gslice string, length (gs_list actual) <> length (gs_list expected) /\
  assert_string_slice_equals actual expected false = (true, 0).
Proof. exists (GSlice 1 ["a"; "a"; "b"]), (GSlice 2 ["a"; "b"]). by vm_compute. Qed.
(** AssertFloatSliceEquals returns false although the test does not fail. *)
Lemma C93_float_slice_refuted_main : exists actual expected : gslice f64, coherent actual expected /\ assert_float_slice_equals actual expected = (false, 0).
Proof. exists (GSlice 1 [f64_div f64_one (f64_of_Z 128)]), (GSlice 2 [f64_zero]). by vm_compute. Qed.
(** An empty slice differs from nil. *)
Lemma C93_empty_refuted_main : exists actual expected : gslice Z, gs_list actual = gs_list expected /\ assert_int_slice_equals actual expected = (false, 1).
Proof. exists GNil, (GSlice 1 []). by vm_compute. Qed.
