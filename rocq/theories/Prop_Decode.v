(** One-hot encoding can be undone: the property theorem C117. *)
From Verif Require Import P_DecodeMain.

(** C117 A category of the training data is recovered in every row. *)
Theorem C117_value : forall (rt : GoRT), forall order (Horder : forall X, order X ≡ₚ elements X) ord (Hord : forall c b X, ord c b X ≡ₚ elements X) opt d0 h0 e h1 d v h h' c j z,
  wf h0 d0 -> oh_fit order ord (oh_fix opt) d0 h0 = Ok (e, h1) ->
  wf h d -> drop_safe e (abs h d) -> oh_transform e d h = Ok (Some v, h') -> c ∈ en_cats e -> t_ints (abs h d) c !! j = Some z ->
  z ∈ t_ints (abs h0 d0) c -> z <> (-1)%Z -> decode e c (abs h' v) j = z.
Proof. exact C117_value_main. Qed.
Print Assumptions C117_value.
(** Whole columns, when missing values have a flag of their own. *)
Theorem C117_column : forall (rt : GoRT), forall order (Horder : forall X, order X ≡ₚ elements X) ord (Hord : forall c b X, ord c b X ≡ₚ elements X) opt d0 h0 e h1 d v h h' c,
  wf h0 d0 -> oh_fit order ord (oh_fix opt) d0 h0 = Ok (e, h1) ->
  wf h d -> drop_safe e (abs h d) -> oh_transform e d h = Ok (Some v, h') -> c ∈ en_cats e -> is_Some (t_cols (abs h d) !! (KInt, c)) ->
  (forall z, z ∈ t_ints (abs h d) c -> recoverable (oh_fix opt) (abs h0 d0) c z) ->
  decode_column e c (abs h' v) = t_ints (abs h d) c.
Proof. exact C117_column_main. Qed.
Print Assumptions C117_column.
Theorem C117_refused : forall (rt : GoRT), forall order (Horder : forall X, order X ≡ₚ elements X) ord (Hord : forall c b X, ord c b X ≡ₚ elements X) opt d0 h0 e h1 d v h h' c,
  wf h0 d0 -> oh_fit order ord (oh_fix opt) d0 h0 = Ok (e, h1) ->
  wf h d -> drop_safe e (abs h d) -> oh_transform e d h = Ok (Some v, h') -> c ∈ en_cats e -> is_Some (t_cols (abs h d) !! (KInt, c)) ->
  oh_unknown (oh_fix opt) = PError -> oh_missing (oh_fix opt) = PSeparate \/ oh_missing (oh_fix opt) = PError ->
  decode_column e c (abs h' v) = t_ints (abs h d) c.
Proof. exact C117_refused_main. Qed.
Print Assumptions C117_refused.
Theorem C117_training : forall (rt : GoRT), forall order (Horder : forall X, order X ≡ₚ elements X) ord (Hord : forall c b X, ord c b X ≡ₚ elements X) opt d0 h0 e h1 v h' c,
  wf h0 d0 -> oh_fit order ord (oh_fix opt) d0 h0 = Ok (e, h1) ->
  drop_safe e (abs h0 d0) -> oh_transform e d0 h0 = Ok (Some v, h') -> is_Some (t_cols (abs h0 d0) !! (KInt, c)) ->
  oh_missing (oh_fix opt) <> PFrequent -> decode_column e c (abs h' v) = t_ints (abs h0 d0) c.
Proof. exact C117_training_main. Qed.
Print Assumptions C117_training.
Local Existing Instance ex_rt.
Example C117_case : wf dw.2 dw.1 /\ oh_fit elts ord0 (oh_fix (OhOpt PIfSeen PError false)) dw.1 dw.2 = Ok (dw_enc, dw.2) /\
  en_cats dw_enc = ["a"] /\ drop_safe dw_enc (abs dw.2 dw.1) /\ oh_transform dw_enc dw.1 dw.2 = Ok (Some dw_out.1, dw_out.2) /\
  t_ints (abs dw.2 dw.1) "a" = [3; -2; 3; -1]%Z /\ decode_column dw_enc "a" (abs dw_out.2 dw_out.1) = [3; -2; 3; -1]%Z.
Proof. exact C117_check_main. Qed.
(** Imputed values are lost. *)
Theorem C117_imputed_refuted : exists d h e v h', wf h d /\ oh_fit elts ord0 (oh_fix (OhOpt PFrequent PError false)) d h = Ok (e, h) /\
  oh_transform e d h = Ok (Some v, h') /\ t_ints (abs h d) "a" = [3; -2; 3; -1]%Z /\
  decode_column e "a" (abs h' v) = [3; -2; 3; 3]%Z.
Proof. exact C117_imputed_refuted_main. Qed.
Print Assumptions C117_imputed_refuted.
