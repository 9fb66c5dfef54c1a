(** What PrintHead and PrintRecords should print, independently of the code. *)
From stdpp Require Import pretty.
From Verif Require Export Spec.
From Coq Require Import Strings.Ascii.

(** Strings in the order of their bytes. *)
Fixpoint bytes_le (s t : string) : Prop :=
  match s, t with
  | EmptyString, _ => True
  | _, EmptyString => False
  | String a s, String b t => (N_of_ascii a < N_of_ascii b)%N \/ a = b /\ bytes_le s t
  end.
(** The names with property [P], each once and in order. *)
Definition in_order (P : string -> Prop) (l : list string) : Prop :=
  StronglySorted bytes_le l /\ NoDup l /\ forall c, c ∈ l <-> P c.
Definition text (l : list string) : string := foldr String.append "" l.
Definition line_end : string := String (ascii_of_nat 10) "".
Fixpoint no_percent (s : string) : Prop :=
  match s with EmptyString => True | String a s => a <> ascii_of_nat 37 /\ no_percent s end.

Section print.
(** How floats and objects that are not strings are shown. *)
Context (flt : f64 -> string) (other : obj -> string).
(** A cell of column [c]; none if a string column holds something else. *)
Definition shown (t : table) (c : string) (v : val) : option string :=
  match v with
  | VFloat x => Some (flt x)
  | VInt z => Some (" " +:+ pretty z)
  | VBool b => Some (if b then " 1" else " 0")
  | VObj ONil => Some " <missing>"
  | VObj o =>
      if decide (c ∈ t_strs t) then
        match t_enc t, o with
        | Some _, _ => Some " <NOT-UTF8>"
        | None, OStr s => Some (" '" +:+ s +:+ "'")
        | None, _ => None
        end
      else Some (" " +:+ other o)
  end.
(** The first [n] cells of a column. *)
Definition column_line (t : table) (n : nat) (k : key) : option string :=
  col ← t_cols t !! k;
  cells ← mapM (shown t k.2) (take n col);
  Some (k.2 +:+ ":" +:+ text cells +:+ line_end).
(** The column shown for a name. *)
Definition named (t : table) (c : string) : option (list val) :=
  match t_cols t !! (KFloat, c), t_cols t !! (KObj, c), t_cols t !! (KInt, c), t_cols t !! (KBool, c) with
  | Some x, _, _, _ => Some x
  | None, Some x, _, _ => Some x
  | None, None, Some x, _ => Some x
  | None, None, None, x => x
  end.
(** Row [i] of the table, [pos] being its storage position. *)
Definition right_align (w : nat) (s : string) : string := text (replicate (w - String.length s) " ") +:+ s.
Definition record_line (t : table) (label : string -> string) (names : list string) (w : nat) (pos : list nat) (i : nat) : option string :=
  j ← pos !! i;
  fields ← mapM (fun c => col ← named t c; v ← col !! i; s ← shown t c v; Some (" " +:+ label c +:+ ":" +:+ s)) names;
  Some ("[" +:+ right_align w (pretty (Z.of_nat i)) +:+ ":" +:+ pretty (Z.of_nat j) +:+ "]" +:+ text fields +:+ line_end).
End print.
