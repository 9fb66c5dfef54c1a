(** Independent specification: tables and textbook operations on them.
    Nothing here refers to heaps, slices, maps or views. *)
From Verif Require Export M_Base.

(** A table: number of rows, the columns (type and name) with their values in
    row order, the names marked as strings, the text encoding and the CPU
    limit. *)
Record table := Table {
  t_rows : nat;
  t_cols : gmap key (list val);
  t_strs : gset string;
  t_enc : option nat;
  t_cpu : Z }.

(** The values of a list at the given positions. *)
Definition pick {A} (ix : list nat) (l : list A) : list A := omap (fun i => l !! i) ix.

(** The same table restricted to the rows at the given positions, one and the
    same list of positions being used for all columns. *)
Definition t_select (ix : list nat) (t : table) : table :=
  Table (length ix) (pick ix <$> t_cols t) (t_strs t) (t_enc t) (t_cpu t).

(** Row [j] of a table. *)
Definition t_row (t : table) (j : nat) : gmap key val :=
  omap (fun col => col !! j) (t_cols t).

Definition t_reverse (t : table) : table :=
  Table (t_rows t) (reverse <$> t_cols t) (t_strs t) (t_enc t) (t_cpu t).
(** Rows [from, to). *)
Definition t_slice (from to : nat) (t : table) : table :=
  Table (to - from) ((fun c => take (to - from) (drop from c)) <$> t_cols t)
        (t_strs t) (t_enc t) (t_cpu t).

(** Positions of the true entries of a mask. *)
Definition true_positions (mask : list bool) : list nat :=
  fst <$> filter (fun p => p.2 = true) (zip (seq 0 (length mask)) mask).

(** Only the columns with a name in [cols]. *)
Definition t_project (cols : list string) (t : table) : table :=
  Table (t_rows t) (filter (fun p => p.1.2 ∈ cols) (t_cols t))
        (filter (fun c => c ∈ cols /\ is_Some (t_cols t !! (KObj, c))) (t_strs t))
        (t_enc t) (t_cpu t).

(** Concatenation of tables with the same columns. *)
Definition t_append (a b : table) : table :=
  Table (t_rows a + t_rows b)
        (map_imap (fun k ca => cb ← t_cols b !! k; Some (ca ++ cb)) (t_cols a))
        (t_strs a) (t_enc a) (t_cpu a).

(** A table whose columns all have [t_rows] values of their type. *)
Definition t_ok (t : table) : Prop :=
  forall k col, t_cols t !! k = Some col ->
    length col = t_rows t /\ Forall (fun v => kind_of v = k.1) col.

(** Replace one column / one cell. *)
Definition t_with_cols (t : table) (cols : gmap key (list val)) : table :=
  Table (t_rows t) cols (t_strs t) (t_enc t) (t_cpu t).
Definition t_set (k : key) (row : nat) (v : val) (t : table) : table :=
  t_with_cols t (alter (fun col => <[row := v]> col) k (t_cols t)).

(** [parts], one after the other, are the rows of [t]. *)
Definition t_concat (parts : list table) (t : table) : Prop :=
  t_rows t = sum_list (t_rows <$> parts) /\
  Forall (fun p => dom (t_cols p) = dom (t_cols t) /\ t_strs p = t_strs t /\
                   t_enc p = t_enc t /\ t_cpu p = t_cpu t) parts /\
  forall k col, t_cols t !! k = Some col ->
    concat ((fun p => default [] (t_cols p !! k)) <$> parts) = col.

(** Order on the values of one column; the values on which it is a total
    order that float64 arithmetic does not blur. *)
Definition val_le (a b : val) : Prop :=
  match a, b with
  | VBool x, VBool y => x = false \/ y = true
  | VFloat x, VFloat y => f64_le x y = true
  | VInt x, VInt y => (x <= y)%Z
  | _, _ => False
  end.
Definition sortable (v : val) : Prop :=
  match v with
  | VBool _ => True
  | VFloat f => f64_isnan f = false
  | VInt z => (Z.abs z <= 2 ^ 53)%Z
  | VObj _ => False
  end.
(** The column SortedView refers to by a name: a bool, float or int column. *)
Definition sort_col (t : table) (c : string) : option (list val) :=
  match t_cols t !! (KBool, c) with
  | Some col => Some col
  | None => match t_cols t !! (KFloat, c) with
            | Some col => Some col
            | None => t_cols t !! (KInt, c)
            end
  end.

(** What is assumed of gonum's Argsort: it returns a permutation of the
    positions, in ascending order of the values if there is no NaN. Nothing is
    assumed about the order of equal values. *)
Definition asort_ok (asort : list f64 -> list nat) : Prop :=
  forall l, asort l ≡ₚ seq 0 (length l) /\
    (Forall (fun x => f64_isnan x = false) l ->
     StronglySorted (fun x y => f64_le x y = true) (pick (asort l) l)).

(** New columns filled with the zero value of their type. *)
Definition t_alloc (k : kind) (cols : list string) (t : table) : table :=
  t_with_cols t (list_to_map ((fun c => ((k, c), replicate (t_rows t) (zero_of k))) <$> cols)
                 ∪ t_cols t).
(** Mark names as strings. *)
Definition t_mark (xs : gset string) (t : table) : table :=
  Table (t_rows t) (t_cols t) (t_strs t ∪ xs) (t_enc t) (t_cpu t).
(** Remove columns by name. *)
Definition t_drop (cols : list string) (t : table) : table :=
  Table (t_rows t) (filter (fun p => p.1.2 ∉ cols) (t_cols t)) (t_strs t ∖ list_to_set cols)
        (t_enc t) (t_cpu t).
(** The column a name refers to in Rename. *)
Definition rename_col (t : table) (c : string) : option (kind * list val) :=
  match t_cols t !! (KFloat, c), t_cols t !! (KObj, c), t_cols t !! (KInt, c), t_cols t !! (KBool, c) with
  | Some x, _, _, _ => Some (KFloat, x)
  | None, Some x, _, _ => Some (KObj, x)
  | None, None, Some x, _ => Some (KInt, x)
  | None, None, None, Some x => Some (KBool, x)
  | None, None, None, None => None
  end.
(** Column [(k, old)] under the new name. *)
Definition t_rename (k : kind) (old new : string) (t : table) : table :=
  Table (t_rows t)
        (match t_cols t !! (k, old) with
         | Some x => <[(k, new) := x]> (delete (k, old) (t_cols t))
         | None => t_cols t
         end)
        (if decide (k = KObj /\ old ∈ t_strs t) then {[new]} ∪ (t_strs t ∖ {[old]}) else t_strs t)
        (t_enc t) (t_cpu t).
(** Replace the columns [cols] of type [k] by float columns, number by number. *)
Definition val_num (v : val) : val :=
  match v with
  | VInt z => VFloat (f64_of_Z z)
  | VBool b => VFloat (if b then f64_one else f64_zero)
  | v => v
  end.
Definition t_to_float (k : kind) (c : string) (t : table) : table :=
  t_with_cols t (match t_cols t !! (k, c) with
                 | Some x => <[(KFloat, c) := val_num <$> x]> (delete (k, c) (t_cols t))
                 | None => t_cols t
                 end).
