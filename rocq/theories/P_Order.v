(** The order on float64 values. *)
From Verif Require Export M_Base.

(** Sign class, then signed exponent, then signed mantissa. *)
Definition fkey (x : f64) : Z * Z * Z :=
  match x with
  | S754_infinity true => (-2, 0, 0)
  | S754_finite true m e => (-1, -e, - Z.pos m)
  | S754_zero _ => (0, 0, 0)
  | S754_finite false m e => (1, e, Z.pos m)
  | S754_infinity false => (2, 0, 0)
  | S754_nan => (3, 0, 0)
  end%Z.
Definition klt (a b : Z * Z * Z) : Prop :=
  (a.1.1 < b.1.1 \/ (a.1.1 = b.1.1 /\ (a.1.2 < b.1.2 \/ (a.1.2 = b.1.2 /\ a.2 < b.2))))%Z.

Lemma f64_le_key x y : f64_isnan x = false -> f64_isnan y = false ->
  f64_le x y = true <-> ~ klt (fkey y) (fkey x).
Proof.
  unfold klt. intros Hx Hy.
  destruct x as [[]|[]| |[] m1 e1]; try discriminate Hx;
  destruct y as [[]|[]| |[] m2 e2]; try discriminate Hy; cbn;
    try (split; [intros _; lia|reflexivity]); try (split; [discriminate|lia]).
  - unfold f64_le, SFleb, SFcompare. destruct (Z.compare_spec e1 e2) as [->|He|He]; cbn.
    + change (Pos.compare_cont Eq m1 m2) with (Pos.compare m1 m2).
      destruct (Pos.compare_spec m1 m2); cbn; split; try done; lia.
    + split; [discriminate|lia].
    + split; [intros _; lia|done].
  - unfold f64_le, SFleb, SFcompare. destruct (Z.compare_spec e1 e2) as [->|He|He]; cbn.
    + change (Pos.compare_cont Eq m1 m2) with (Pos.compare m1 m2).
      destruct (Pos.compare_spec m1 m2); cbn; split; try done; lia.
    + split; [intros _; lia|done].
    + split; [discriminate|lia].
Qed.
Lemma f64_lt_key x y : f64_isnan x = false -> f64_isnan y = false ->
  f64_lt x y = true <-> klt (fkey x) (fkey y).
Proof.
  unfold klt. intros Hx Hy.
  destruct x as [[]|[]| |[] m1 e1]; try discriminate Hx;
  destruct y as [[]|[]| |[] m2 e2]; try discriminate Hy; cbn;
    try (split; [intros _; lia|reflexivity]); try (split; [discriminate|lia]).
  - unfold f64_lt, SFltb, SFcompare. destruct (Z.compare_spec e1 e2) as [->|He|He]; cbn.
    + change (Pos.compare_cont Eq m1 m2) with (Pos.compare m1 m2).
      destruct (Pos.compare_spec m1 m2); cbn; split; try done; lia.
    + split; [discriminate|lia].
    + split; [intros _; lia|done].
  - unfold f64_lt, SFltb, SFcompare. destruct (Z.compare_spec e1 e2) as [->|He|He]; cbn.
    + change (Pos.compare_cont Eq m1 m2) with (Pos.compare m1 m2).
      destruct (Pos.compare_spec m1 m2); cbn; split; try done; lia.
    + split; [intros _; lia|done].
    + split; [discriminate|lia].
Qed.
Lemma f64_le_nan x y : f64_le x y = true -> f64_isnan x = false /\ f64_isnan y = false.
Proof. by destruct x as [[]|[]| |[] ? ?], y as [[]|[]| |[] ? ?]. Qed.
Lemma f64_lt_nan x y : f64_lt x y = true -> f64_isnan x = false /\ f64_isnan y = false.
Proof. by destruct x as [[]|[]| |[] ? ?], y as [[]|[]| |[] ? ?]. Qed.

Lemma f64_le_refl x : f64_isnan x = false -> f64_le x x = true.
Proof. intros H. apply f64_le_key; [done..|]. unfold klt. lia. Qed.
Lemma f64_le_total x y : f64_isnan x = false -> f64_isnan y = false ->
  f64_le x y = true \/ f64_le y x = true.
Proof. intros Hx Hy. rewrite !f64_le_key by done. unfold klt. lia. Qed.
Lemma f64_le_trans x y z : f64_le x y = true -> f64_le y z = true -> f64_le x z = true.
Proof.
  intros H1 H2. destruct (f64_le_nan _ _ H1), (f64_le_nan _ _ H2).
  rewrite f64_le_key in * by done. unfold klt in *. lia.
Qed.
Lemma f64_lt_le x y : f64_isnan x = false -> f64_isnan y = false ->
  f64_lt x y = false <-> f64_le y x = true.
Proof.
  intros Hx Hy. rewrite f64_le_key by done. rewrite <- f64_lt_key by done.
  destruct (f64_lt x y); split; congruence.
Qed.
