(** What one-hot encoding should do, independently of the code. *)
From Verif Require Export M_OneHot Spec.

(** The values of an int column. *)
Definition the_int (v : val) : Z := match v with VInt z => z | _ => 0 end.
Definition t_ints (t : table) (c : string) : list Z := the_int <$> default [] (t_cols t !! (KInt, c)).
(** How often [z] occurs. *)
Definition freq (z : Z) (vs : list Z) : nat := length (filter (fun v => v = z) vs).
(** [z] is a category of [vs], and one of the most frequent ones. *)
Definition is_cat (vs : list Z) (z : Z) : Prop := z ∈ vs /\ z <> (-1)%Z.
Definition frequent_cat (vs : list Z) (z : Z) : Prop :=
  is_cat vs z /\ forall z', is_cat vs z' -> freq z' vs <= freq z vs.

(** Encoders fitted to the values [vs] of column [c]. *)
Definition fallback0_ok (opt : oh_opt) (c : string) (vs : list Z) (toNew : gmap Z string) (fb : string) : Prop :=
  match oh_missing opt with
  | PIfSeen => if decide ((-1)%Z ∈ vs) then fb = missing_name c else exists z, frequent_cat vs z /\ toNew !! z = Some fb
  | PSeparate => fb = missing_name c
  | PFrequent => exists z, frequent_cat vs z /\ toNew !! z = Some fb
  | PError => fb = ""
  | PShared => False
  end.
Definition fallback1_ok (opt : oh_opt) (c : string) (vs : list Z) (toNew : gmap Z string) (fb0 fb : string) : Prop :=
  match oh_unknown opt with
  | PSeparate => fb = unk_name c
  | PFrequent => exists z, frequent_cat vs z /\ toNew !! z = Some fb
  | PShared => fb = fb0 /\ fb <> ""
  | PError => fb = ""
  | PIfSeen => False
  end.
Record fitted_col (opt : oh_opt) (c : string) (vs : list Z) (toNew : gmap Z string) (fb0 fb1 : string) : Prop := {
  fc_cats : forall z, is_Some (toNew !! z) <-> is_cat vs z;
  fc_names : forall z n, toNew !! z = Some n -> exists i, n = onehot_name c i /\ i < size toNew;
  fc_inj : forall z1 z2 n, toNew !! z1 = Some n -> toNew !! z2 = Some n -> z1 = z2;
  fc_fb0 : fallback0_ok opt c vs toNew fb0;
  fc_fb1 : fallback1_ok opt c vs toNew fb0 fb1 }.
(** The boolean columns made for column [c]. *)
Definition created (e : encoder) (c n : string) : Prop :=
  (exists toNew z, en_map e !! c = Some toNew /\ toNew !! z = Some n) \/
  (n <> "" /\ exists fb0 fb1, en_fb e !! c = Some (fb0, fb1) /\ (n = fb0 \/ n = fb1)).
Record fitted (opt : oh_opt) (t : table) (e : encoder) : Prop := {
  ft_opt : en_opt e = opt;
  ft_nodup : NoDup (en_cats e);
  ft_cats : forall c, c ∈ en_cats e <-> is_Some (t_cols t !! (KInt, c));
  ft_col : forall c, c ∈ en_cats e -> exists toNew fb0 fb1,
    en_map e !! c = Some toNew /\ en_fb e !! c = Some (fb0, fb1) /\ fitted_col opt c (t_ints t c) toNew fb0 fb1;
  ft_new_nodup : NoDup (en_new e);
  ft_new : forall n, n ∈ en_new e <-> exists c, c ∈ en_cats e /\ created e c n }.

(** Columns for which the policies give no fallback. *)
Definition no_fallback (opt : oh_opt) (vs : list Z) : Prop :=
  ((forall z, ~ is_cat vs z) /\
     (oh_missing opt = PFrequent \/ oh_unknown opt = PFrequent \/ (oh_missing opt = PIfSeen /\ (-1)%Z ∉ vs))) \/
  (oh_missing opt = PError /\ oh_unknown opt = PShared).

(** Category [z] of column [c] sets the flag of column [n]; it is refused. *)
Definition flagged (e : encoder) (c : string) (z : Z) (n : string) : Prop :=
  exists toNew fb0 fb1, en_map e !! c = Some toNew /\ en_fb e !! c = Some (fb0, fb1) /\
  ((z = -1)%Z /\ n = fb0 \/ z <> (-1)%Z /\ toNew !! z = Some n \/ z <> (-1)%Z /\ toNew !! z = None /\ n = fb1).
Definition refused (opt : oh_opt) (t : table) (c : string) (z : Z) : Prop :=
  (z = -1)%Z /\ oh_missing opt = PError \/ z <> (-1)%Z /\ z ∉ t_ints t c /\ oh_unknown opt = PError.
(** Options as fix leaves them. *)
Definition fixed (opt : oh_opt) : Prop := oh_missing opt <> PShared /\ oh_unknown opt <> PIfSeen.
(** The table [t'] encodes [t]. *)
Record encoded (e : encoder) (t t' : table) : Prop := {
  ec_rows : t_rows t' = t_rows t;
  ec_rest : t_strs t' = t_strs t /\ t_enc t' = t_enc t /\ t_cpu t' = t_cpu t;
  ec_flags : forall c n j z, c ∈ en_cats e -> created e c n -> t_ints t c !! j = Some z ->
    exists col b, t_cols t' !! (KBool, n) = Some col /\ col !! j = Some (VBool b) /\ (b = true <-> flagged e c z n);
  ec_new : forall n, n ∈ en_new e -> exists col, t_cols t' !! (KBool, n) = Some col /\ length col = t_rows t;
  ec_others : forall k, (k.1 <> KBool \/ k.2 ∉ en_new e) ->
    t_cols t' !! k = if decide (k.2 ∈ en_cats e /\ oh_keep (en_opt e) = false) then None else t_cols t !! k }.
(** Dropping the categorical columns by name removes nothing else. *)
Definition drop_safe (e : encoder) (t : table) : Prop :=
  oh_keep (en_opt e) = true \/
  (en_new e <> [] /\ (forall c, c ∈ en_cats e -> c ∉ en_new e) /\ (forall c, c ∈ en_cats e -> c ∉ t_strs t)).
