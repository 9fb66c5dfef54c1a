(** What reading and writing CSV should do, in terms of cells. *)
From Verif Require Export M_Csv Spec.

(** The cells of column [c]: those under the first occurrence of its name. *)
Definition cells_of (header : list string) (recs : list (list string)) (c : string) (l : list string) : Prop :=
  exists col, header !! col = Some c /\ (forall j, j < col -> header !! j <> Some c) /\
    Forall2 (fun r s => r !! col = Some s) recs l.

Section csv.
Context {crt : CsvRT}.
(** The cells [l] are a column of type [k] with the values [vs]. *)
Definition reads_as (markers : list string) (k : kind) (l : list string) (vs : list val) : Prop :=
  Forall2 (fun s v =>
    match k with
    | KBool => exists b, parse_bool s = Some b /\ v = VBool b
    | KInt => s ∈ markers /\ v = VInt (-1) \/ s ∉ markers /\ exists z, parse_int s = Some z /\ v = VInt z
    | KFloat => s ∈ markers /\ v = VFloat S754_nan \/ s ∉ markers /\ exists x, parse_float s = Some x /\ v = VFloat x
    | KObj => s ∈ markers /\ v = VObj ONil \/ s ∉ markers /\ v = VObj (OStr s)
    end) l vs.
(** bool before int before float before string (csv_parsing.go:171-178). *)
Definition rank (k : kind) : nat := match k with KBool => 0 | KInt => 1 | KFloat => 2 | KObj => 3 end.
Definition ladder (markers : list string) (l : list string) (k : kind) (vs : list val) : Prop :=
  reads_as markers k l vs /\ forall k' vs', rank k' < rank k -> ~ reads_as markers k' l vs'.
End csv.

(** ** Writing *)
Section write.
Context {crt : CsvRT}.
(** A value as text. *)
Definition cell_text (marker : string) (v : val) : option string :=
  match v with
  | VBool true => Some "true"
  | VBool false => Some "false"
  | VInt z => Some (pretty z)
  | VFloat x => Some (fmt_float x)
  | VObj ONil => Some marker
  | VObj (OStr s) => Some s
  | VObj _ => None
  end.
(** Row [i] of a table, the columns being [keys]. *)
Definition t_record (marker : string) (keys : list key) (t : table) (i : nat) : option (list string) :=
  mapM (fun k : key => match t_cols t !! k with Some col => match col !! i with Some v => cell_text marker v | None => None end | None => None end) keys.
Definition t_records (marker : string) (keys : list key) (t : table) : option (list (list string)) :=
  mapM (t_record marker keys t) (seq 0 (t_rows t)).
(** [keys] are the columns in the order bool, int, float, string. *)
Definition of_kind (k : kind) (t : table) : gset string :=
  set_map (fun x : key => x.2) (filter (fun x : key => x.1 = k) (dom (t_cols t))).
Definition csv_order (t : table) (keys : list key) : Prop :=
  exists bl il fl sl, bl ≡ₚ elements (of_kind KBool t) /\ il ≡ₚ elements (of_kind KInt t) /\
    fl ≡ₚ elements (of_kind KFloat t) /\ sl ≡ₚ elements (t_strs t) /\
    keys = ((fun c => (KBool, c)) <$> bl) ++ ((fun c => (KInt, c)) <$> il) ++
           ((fun c => (KFloat, c)) <$> fl) ++ ((fun c => (KObj, c)) <$> sl).
End write.

(** ** Round trip *)
Section round.
Context {crt : CsvRT}.
(** A column of type [k] with the values [vs], written with the missing marker
    [marker], is read as the same column if [ms] are the markers for missing
    values. *)
Definition survives (marker : string) (ms : list string) (k : kind) (vs : list val) : Prop :=
  let text s := exists v, v ∈ vs /\ cell_text marker v = Some s in
  match k with
  | KBool => True
  | KInt => (exists z, VInt z ∈ vs /\ z <> 0%Z /\ z <> 1%Z) /\
            (forall z, VInt z ∈ vs -> pretty z ∈ ms -> z = (-1)%Z)
  | KFloat => (exists x, VFloat x ∈ vs /\ parse_bool (fmt_float x) = None) /\
              (exists x, VFloat x ∈ vs /\ fmt_float x ∉ ms /\ parse_int (fmt_float x) = None) /\
              (forall x, VFloat x ∈ vs -> fmt_float x ∈ ms -> x = S754_nan)
  | KObj => (exists s, text s /\ parse_bool s = None) /\
            (exists s, text s /\ s ∉ ms /\ parse_int s = None) /\
            (exists s, text s /\ s ∉ ms /\ parse_float s = None) /\
            (VObj ONil ∈ vs -> marker ∈ ms) /\ (forall s, VObj (OStr s) ∈ vs -> s ∉ ms)
  end.
(** Numbers of [vs] that can be written and read. *)
Definition numbers_ok (vs : list val) : Prop :=
  (forall z, VInt z ∈ vs -> (- 2 ^ 63 <= z < 2 ^ 63)%Z) /\
  (forall x, VFloat x ∈ vs -> parse_float (fmt_float x) = Some x).
End round.

(** A table that cannot be written: a string column contains something else
    than a string or nil, or does not exist. *)
Definition unwritable (t : table) : Prop :=
  exists c, c ∈ t_strs t /\
    match t_cols t !! (KObj, c) with
    | Some col => exists v, v ∈ col /\ v <> VObj ONil /\ forall s, v <> VObj (OStr s)
    | None => 0 < t_rows t
    end.
