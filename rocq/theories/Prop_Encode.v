(** Encode: the property theorems C40. *)
From Verif Require Import P_EncodeMain.
Local Existing Instance ex_rt.

(** C40 Encode re-encodes every visible string once or returns an error and
    changes nothing, for all encodings, name orders and failing positions; the
    visible strings must not share storage, and an encoding must be able to undo
    what it did. *)
Theorem C40_encode : forall (rt : GoRT) (codecs : nat -> codec) (order : gset string -> list string)
    (h : heap) (d : dframe) (new : option nat),
  (forall s, order s ≡ₚ elements s) -> wf h d -> str_cells_distinct h d ->
  let t := abs h d in let conv := convert codecs (t_enc t) new in
  match encode_df codecs order d new h with
  | Ok ((false, d'), h') =>
      (t_enc t = new /\ d' = d /\ h' = h) \/
      (t_enc t <> new /\ wf h' d' /\ abs h' d' = t_encode conv new t /\
       (* every string was re-encoded *)
       (forall s, str_value t (VObj (OStr s)) -> is_Some (conv s)) /\
       (* no other cell of any dataframe changed, no structure *)
       forall d2, wf h d2 -> wf h' d2 /\ same_shape (abs h d2) (abs h' d2) /\
         forall k j a, cell_of h d2 k j = Some a ->
           (forall c i, c ∈ t_strs t -> cell_of h d (KObj, c) i <> Some a) ->
           t_cell (abs h' d2) k j = t_cell (abs h d2) k j)
  | Ok ((true, d'), h') =>
      d' = d /\ (exists s, str_value t (VObj (OStr s)) /\ conv s = None) /\
      (* nothing at all has changed if what could be converted can be converted back *)
      ((forall s s', str_value t (VObj (OStr s)) -> conv s = Some s' -> convert codecs new (t_enc t) s' = Some s) -> h' = h)
  | Panic =>
      (exists c, c ∈ t_strs t /\ t_cols t !! (KObj, c) = None /\ 0 < t_rows t) \/
      (exists v, str_value t v /\ ~ is_str v)
  end.
Proof. exact C40_encode_main. Qed.
Print Assumptions C40_encode.
Example C40_case : wf ex_h ex_d /\ str_cells_distinct ex_h ex_d /\
  exists d' h', encode_df ex_codecs elements ex_d (Some 1) ex_h = Ok ((false, d'), h') /\
    has_vals (abs h' d') (KObj, "s") [VObj (OStr "x!"); VObj ONil; VObj (OStr "yy!"); VObj (OStr "x!")].
Proof.
  split; [exact ex_wf|]. split; [apply cells_distinct_str, cells_distinct_sound; by vm_compute|].
  exists (run_enc (encode_df ex_codecs elements ex_d (Some 1)) ex_h).1.2, (run_enc (encode_df ex_codecs elements ex_d (Some 1)) ex_h).2.
  split; by vm_compute.
Qed.
Theorem C40_repeated_rows_refuted : exists (rt : GoRT) (codecs : nat -> codec) (h : heap) (d d' : dframe) (h' : heap),
  wf h d /\ encode_df codecs elements d (Some 1) h = Ok ((false, d'), h') /\
  has_vals (abs h d) (KObj, "s") [VObj (OStr "yy"); VObj (OStr "x"); VObj (OStr "yy")] /\
  convert codecs None (Some 1) "yy" = Some "yy!" /\
  has_vals (abs h' d') (KObj, "s") [VObj (OStr "yy!!"); VObj (OStr "x!"); VObj (OStr "yy!!")].
Proof. exact C40_repeated_rows_refuted_main. Qed.
Print Assumptions C40_repeated_rows_refuted.
Theorem C40_lossy_refuted : exists (rt : GoRT) (codecs : nat -> codec) (h : heap) (d : dframe) (h' : heap),
  wf h d /\ str_cells_distinct h d /\ encode_df codecs elements d None h = Ok ((true, d), h') /\
  has_vals (abs h d) (KObj, "s") [VObj (OStr "x"); VObj ONil; VObj (OStr "yy"); VObj (OStr "x")] /\
  has_vals (abs h' d) (KObj, "s") [VObj (OStr "?"); VObj ONil; VObj (OStr "yy"); VObj (OStr "x")].
Proof. exact C40_lossy_refuted_main. Qed.
Print Assumptions C40_lossy_refuted.
Theorem C40_parent_refuted : exists (rt : GoRT) (codecs : nat -> codec) (h : heap) (p d d' : dframe) (h' : heap),
  wf h p /\ wf h d /\ str_cells_distinct h d /\ encode_df codecs elements d (Some 1) h = Ok ((false, d'), h') /\
  t_enc (abs h' p) = None /\ t_enc (abs h' d') = Some 1 /\
  has_vals (abs h p) (KObj, "s") [VObj (OStr "x"); VObj ONil; VObj (OStr "yy"); VObj (OStr "x")] /\
  has_vals (abs h' p) (KObj, "s") [VObj (OStr "x!"); VObj ONil; VObj (OStr "yy"); VObj (OStr "x")].
Proof. exact C40_parent_refuted_main. Qed.
Print Assumptions C40_parent_refuted.
