(** Strings made into boolean columns by HashEncoder and OneHotEncoder: the
    property theorem C112. *)
From Verif Require Import P_VectorMain.

(** C112 Rows whose strings are in the training data have the same flags if
    and only if the strings have the same code, which is never the number of
    a missing value. *)
Theorem C112_separates : forall (rt : GoRT), forall order (Horder : forall X, order X ≡ₚ elements X) ord (Hord : forall c b X, ord c b X ≡ₚ elements X) opt train h0 d h e w h',
  wf h0 train -> wf h d ->
  (forall c, c ∈ t_strs (abs h0 train) -> is_Some (t_cols (abs h0 train) !! (KObj, c)) /\ is_Some (t_cols (abs h d) !! (KObj, c))) ->
  (exists k, is_Some (t_cols (abs h0 train) !! k) /\ k.2 ∉ t_strs (abs h0 train)) ->
  (exists k, is_Some (t_cols (abs h d) !! k) /\ k.2 ∉ t_strs (abs h0 train)) ->
  vectorized order ord opt train h0 d h e w h' ->
  forall c i j s1 s2, c ∈ t_strs (abs h0 train) -> seen (abs h0 train) c s1 -> seen (abs h0 train) c s2 ->
  t_cell (abs h d) (KObj, c) i = Some (VObj (OStr s1)) -> t_cell (abs h d) (KObj, c) j = Some (VObj (OStr s2)) ->
  (same_flags e c (abs h' w) i j <-> string_code s1 = string_code s2).
Proof. intros rt. exact C112_separates_main. Qed.
Print Assumptions C112_separates.
(** With the policies that ask for it, missing and unknown strings have flags
    of their own. *)
Theorem C112_missing : forall (rt : GoRT), forall order (Horder : forall X, order X ≡ₚ elements X) ord (Hord : forall c b X, ord c b X ≡ₚ elements X) opt train h0 d h e w h',
  wf h0 train -> wf h d ->
  (forall c, c ∈ t_strs (abs h0 train) -> is_Some (t_cols (abs h0 train) !! (KObj, c)) /\ is_Some (t_cols (abs h d) !! (KObj, c))) ->
  (exists k, is_Some (t_cols (abs h0 train) !! k) /\ k.2 ∉ t_strs (abs h0 train)) ->
  (exists k, is_Some (t_cols (abs h d) !! k) /\ k.2 ∉ t_strs (abs h0 train)) ->
  vectorized order ord opt train h0 d h e w h' ->
  forall c i j s, c ∈ t_strs (abs h0 train) -> seen (abs h0 train) c s ->
  oh_missing (oh_fix opt) = PSeparate \/ oh_missing (oh_fix opt) = PIfSeen /\ seen_nil (abs h0 train) c ->
  t_cell (abs h d) (KObj, c) i = Some (VObj (OStr s)) -> t_cell (abs h d) (KObj, c) j = Some (VObj ONil) ->
  ~ same_flags e c (abs h' w) i j.
Proof. intros rt. exact C112_missing_main. Qed.
Print Assumptions C112_missing.
Theorem C112_unknown : forall (rt : GoRT), forall order (Horder : forall X, order X ≡ₚ elements X) ord (Hord : forall c b X, ord c b X ≡ₚ elements X) opt train h0 d h e w h',
  wf h0 train -> wf h d ->
  (forall c, c ∈ t_strs (abs h0 train) -> is_Some (t_cols (abs h0 train) !! (KObj, c)) /\ is_Some (t_cols (abs h d) !! (KObj, c))) ->
  (exists k, is_Some (t_cols (abs h0 train) !! k) /\ k.2 ∉ t_strs (abs h0 train)) ->
  (exists k, is_Some (t_cols (abs h d) !! k) /\ k.2 ∉ t_strs (abs h0 train)) ->
  vectorized order ord opt train h0 d h e w h' ->
  forall c i j s x, c ∈ t_strs (abs h0 train) -> seen (abs h0 train) c s -> oh_unknown (oh_fix opt) = PSeparate ->
  (forall s', seen (abs h0 train) c s' -> string_code s' <> string_code x) ->
  t_cell (abs h d) (KObj, c) i = Some (VObj (OStr s)) -> t_cell (abs h d) (KObj, c) j = Some (VObj (OStr x)) ->
  ~ same_flags e c (abs h' w) i j.
Proof. intros rt. exact C112_unknown_main. Qed.
Print Assumptions C112_unknown.
(** Fitted to the strings x, nil, yy, x; applied to yy, x, nil, yy, zz. *)
Local Existing Instance ex_rt.
Example C112_case : wf ex_h ex_d /\ wf vt.2 vt.1 /\
  (forall c, c ∈ t_strs (abs ex_h ex_d) -> is_Some (t_cols (abs ex_h ex_d) !! (KObj, c)) /\ is_Some (t_cols (abs vt.2 vt.1) !! (KObj, c))) /\
  (exists k, is_Some (t_cols (abs ex_h ex_d) !! k) /\ k.2 ∉ t_strs (abs ex_h ex_d)) /\
  (exists k, is_Some (t_cols (abs vt.2 vt.1) !! k) /\ k.2 ∉ t_strs (abs ex_h ex_d)) /\
  vectorized elts ord0 w_opt ex_d ex_h vt.1 vt.2 vt_enc vt_w.1 vt_w.2 /\
  "s" ∈ t_strs (abs ex_h ex_d) /\ seen (abs ex_h ex_d) "s" "x" /\ seen (abs ex_h ex_d) "s" "yy" /\ seen_nil (abs ex_h ex_d) "s" /\
  (string_code "x" <> string_code "yy") /\
  show KBool "s_onehot0" vt_w.2 vt_w.1 = Some (VBool <$> [false; true; false; false; false]) /\
  show KBool "s_onehot1" vt_w.2 vt_w.1 = Some (VBool <$> [true; false; false; true; false]) /\
  show KBool "s_missing" vt_w.2 vt_w.1 = Some (VBool <$> [false; false; true; false; false]) /\
  show KBool "s_unk" vt_w.2 vt_w.1 = Some (VBool <$> [false; false; false; false; true]).
Proof. exact C112_check_main. Qed.
