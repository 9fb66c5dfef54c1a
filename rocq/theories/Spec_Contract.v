(** What preprocessing/interfaces.go:26-39 says about the memory of the dataframes
    returned by TransformView. *)
From Verif Require Import M_Auto Spec_Auto P_WriteMain.
From stdpp Require Import strings list.
From Verif Require Import P_Base.

(** The contract: every column of [v] of which [T] holds is stored in cells that
    no dataframe of the old state has, and the others in the cells of [d]. *)
Definition contract (h : heap) (d : dframe) (h' : heap) (v : dframe) (T : key -> Prop) : Prop :=
  (forall k, T k -> forall d0 k0, wf h d0 -> cells_apart h' v k d0 k0) /\
  (forall k j, ~ T k -> cell_of h' v k j = cell_of h d k j).
(** The columns HashEncoder, OneHotEncoder and AutoPreprocessor produce or remove. *)
Definition onehot_touches (e : encoder) (k : key) : Prop :=
  (k.1 = KBool /\ k.2 ∈ en_new e) \/ (oh_keep (en_opt e) = false /\ k.2 ∈ en_cats e).
Definition floats_touched (p : auto) (c : string) : Prop :=
  (exists f, ap_imputer p = Some f /\ c ∈ dom f) \/ (exists s, ap_scaler p = Some s /\ c ∈ scale_names s).
Definition auto_touches (p : auto) (k : key) : Prop :=
  floats_touched p k.2 \/ (exists cols, ap_hash p = Some cols /\ k.2 ∈ cols) \/
  (exists e, ap_onehot p = Some e /\ onehot_touches e k).
