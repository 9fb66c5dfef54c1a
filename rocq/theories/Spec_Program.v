(** What the program examples/linreg.go should read from its file. *)
From Verif Require Import M_Program M_Strconv.
From Verif Require Export Spec_Example Spec_Csv.

(** A cell without a value. *)
Definition blank_cell (s : string) : Prop := s = "" \/ s = " " \/ s = "NA" \/ s = "-".
Global Instance blank_cell_dec s : Decision (blank_cell s).
Proof. unfold blank_cell. apply _. Defined.
(** Every cell with a value is a number. *)
Definition numeric (l : list string) : Prop := forall s, s ∈ l -> ~ blank_cell s -> is_Some (parse_f64 s).
Definition number_in (s : string) : val := VFloat (if decide (blank_cell s) then S754_nan else default S754_nan (parse_f64 s)).
Definition text_in (s : string) : val := if decide (blank_cell s) then VObj ONil else VObj (OStr s).
(** A column that is read, with its cells. *)
Definition wanted (exclude header : list string) (recs : list (list string)) (c : string) (l : list string) : Prop :=
  c ∈ header /\ c ∉ exclude /\ cells_of header recs c l.
(** [t] is what the file contains. *)
Definition loaded (exclude header : list string) (recs : list (list string)) (t : table) : Prop :=
  t_rows t = length recs /\
  (forall k c vs, t_cols t !! (k, c) = Some vs <-> exists l, wanted exclude header recs c l /\
     (k = KFloat /\ numeric l /\ vs = (number_in <$> l) \/ k = KObj /\ ~ numeric l /\ vs = (text_in <$> l))) /\
  (forall c, c ∈ t_strs t <-> is_Some (t_cols t !! (KObj, c))).
