(** Specification of the reading and hashing operations. *)
From Verif Require Export Spec.

(** FNV-1a over the bytes of a string, 64 bits: the published definition. *)
Definition spec_fnv1a (s : string) : Z :=
  foldl (fun h c => (Z.lxor h (Z.of_N (Ascii.N_of_ascii c)) * 1099511628211) mod 2 ^ 64)%Z
        14695981039346656037%Z (list_ascii_of_string s).
Definition spec_hash (v : val) : val :=
  match v with
  | VObj (OStr s) => VInt (spec_fnv1a s mod (2 ^ 63 - 1))
  | _ => VInt (-1)
  end.
(** Every column of [cols] replaced by the int column of its hashes. *)
Definition hash_cols (cols : list string) (from to : gmap key (list val)) : gmap key (list val) :=
  foldl (fun acc c => match from !! (KObj, c) with
                      | Some x => <[(KInt, c) := spec_hash <$> x]> acc
                      | None => acc
                      end) to cols.
Definition t_hash (cols : list string) (t : table) : table :=
  Table (t_rows t) (hash_cols cols (t_cols t) (filter (fun p => p.1.2 ∉ cols) (t_cols t)))
        (filter (fun c => c ∉ cols /\ is_Some (t_cols t !! (KObj, c))) (t_strs t))
        (t_enc t) (t_cpu t).

(** Strings in order of first appearance. *)
Fixpoint first_seen (seen : list string) (vs : list val) : list string :=
  match vs with
  | [] => seen
  | VObj (OStr s) :: vs => first_seen (if decide (s ∈ seen) then seen else seen ++ [s]) vs
  | _ :: vs => first_seen seen vs
  end.
(** A string or a missing string. *)
Definition string_val (v : val) : Prop :=
  match v with VObj ONil => True | VObj (OStr _) => True | _ => False end.
(** The column a name refers to in CopyValuesToInterfaces. *)
Definition any_col (t : table) (c : string) : option (list val) :=
  match t_cols t !! (KObj, c), t_cols t !! (KFloat, c), t_cols t !! (KInt, c), t_cols t !! (KBool, c) with
  | Some x, _, _, _ => Some x
  | None, Some x, _, _ => Some x
  | None, None, Some x, _ => Some x
  | None, None, None, o => o
  end.
