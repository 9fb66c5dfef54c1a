(** Package utils and the column headers, plus GoodShortNames. *)
From Verif Require Export M_Frame.

(** ** utils.go. Go's int is taken as Z: the sizes and indices handled here stay
    far below 2^63, and no arithmetic on them wraps. *)

(** MakeRange (utils/utils.go:9-15). [mr_loop lo n]: [lo] cells of [result]
    remain; writing beyond them panics. Division truncates and panics on 0, and
    make panics on a negative size. *)
Fixpoint mr_loop (lo : nat) (n to interval : Z) : res (list Z) :=
  if decide (n < to)%Z then
    match lo with
    | 0 => Panic
    | S lo =>
        match mr_loop lo (n + interval)%Z to interval with
        | Ok rest => Ok (n :: rest)
        | Panic => Panic
        end
    end
  else Ok (replicate lo 0%Z).
Definition make_range (from to interval : Z) : res (list Z) :=
  if decide (interval = 0)%Z then Panic else
  let n := Z.quot (to - from) interval in
  if decide (n < 0)%Z then Panic else mr_loop (Z.to_nat n) from to interval.

(** GroupIndexer (utils/group_indexer.go:5-48). *)
Record group_indexer := GroupIndexer {
  gi_groups : Z; gi_size : Z; gi_elem : Z; gi_end : Z; gi_group : Z }.
Definition create_group_indexer (nElements nGroups : Z) : res group_indexer :=
  if decide (nGroups < 0)%Z then Panic else
  let nGroups := if decide (nElements < nGroups)%Z then nElements else nGroups in
  if decide (nGroups = 0)%Z then Panic else (* integer division by zero *)
  let size := Z.quot nElements nGroups in
  let size := if decide (Z.rem nElements nGroups = 0)%Z then size else (size + 1)%Z in
  Ok (GroupIndexer nGroups size 0 nElements 0).
Definition gi_has_next (g : group_indexer) : bool := bool_decide (gi_elem g < gi_end g)%Z.
Definition gi_next (g : group_indexer) : (Z * Z * Z) * group_indexer :=
  let current := gi_elem g in
  let next := (current + gi_size g)%Z in
  let next := if decide (gi_end g < next)%Z then gi_end g else next in
  ((gi_group g, current, next), GroupIndexer (gi_groups g) (gi_size g) next (gi_end g) (gi_group g + 1)).

(** SplitStringSlice (utils/utils.go:31-42). [fuel] bounds the number of
    iterations; running out of it counts as a panic (it never happens, see
    C62). A nil group is the empty list. *)
Fixpoint split_groups (fuel : nat) (g : group_indexer) (strings : list string) (result : list (list string))
  : res (list (list string)) :=
  if gi_has_next g then
    match fuel with
    | 0 => Panic
    | S fuel =>
        let '((i, lo, hi), g) := gi_next g in
        if decide (0 <= i < Z.of_nat (length result) /\ 0 <= lo <= hi /\ hi <= Z.of_nat (length strings))%Z then
          split_groups fuel g strings
            (<[Z.to_nat i := take (Z.to_nat (hi - lo)) (drop (Z.to_nat lo) strings)]> result)
        else Panic
    end
  else Ok result.
Definition split_string_slice (strings : list string) (nGroups : Z) : res (list (list string)) :=
  if decide (strings = [] \/ nGroups = 0%Z) then Ok [] else
  match create_group_indexer (Z.of_nat (length strings)) nGroups with
  | Panic => Panic
  | Ok g => split_groups (length strings) g strings (replicate (Z.to_nat (gi_groups g)) [])
  end.

(** IndexOfString (utils/utils.go:70-77). *)
Fixpoint index_of_string_from (k : Z) (e : string) (l : list string) : Z :=
  match l with
  | [] => -1
  | v :: l => if decide (e = v) then k else index_of_string_from (k + 1) e l
  end.
Definition index_of_string (e : string) (l : list string) : Z := index_of_string_from 0 e l.

(** ** ColumnHeader (column_header.go:4-105). A header is a reference to a Go
    map or nil; the maps live in [h_str]. [range] over a map visits every
    element once, in any order, and these loops do not depend on the order. *)
Definition header := option nat.
(** Columns (column_header.go:9-15). *)
Definition hd_columns (names : list string) : M header :=
  let* l := new_str (list_to_set names) in ret (Some l).
(** Num (column_header.go:18-23). *)
Definition hd_num (x : header) : M nat := let* s := get_ostr x in ret (size s).
(** NameList (column_header.go:36-47), the elements being visited in the order
    [order] gives. *)
Definition hd_name_list (order : gset string -> list string) (x : header) : M (list string) :=
  let* s := get_ostr x in ret (order s).
(** ExceptHeader (column_header.go:51-63) and Except (column_header.go:67-75). *)
Definition hd_except_header (x : header) (others : list header) : M header :=
  forM others (fun o => let* s := get_ostr o in str_remove x s) ;;* ret x.
Definition hd_except (x : header) (cols : list string) : M header :=
  str_remove x (list_to_set cols) ;;* ret x.
(** And (column_header.go:79-91). *)
Definition hd_and (x : header) (others : list header) : M header :=
  let* x := (match x with Some l => ret x | None => let* l := new_str ∅ in ret (Some l) end) in
  forM others (fun o => let* s := get_ostr o in let* _ := str_add x s in ret tt) ;;* ret x.
(** Copy (column_header.go:94-105). *)
Definition hd_copy (x : header) : M header :=
  match x with
  | None => ret None
  | Some l => let* s := get_ostr x in let* l := new_str s in ret (Some l)
  end.

(** IntHeader, ObjectHeader, FloatHeader, BoolHeader (column_header.go:109-158). *)
Definition kind_header (k : kind) (r : raw) : M header :=
  let* m := get_mp (r_maps r) in
  if decide (names_of k m = ∅) then ret None else
  let* l := new_str (names_of k m) in ret (Some l).
(** StringHeader (column_header.go:162-165). *)
Definition string_header (r : raw) : M header := hd_copy (r_strs r).
(** Header (column_header.go:169-171). *)
Definition all_header (r : raw) : M header :=
  let* i := kind_header KInt r in
  let* b := kind_header KBool r in
  let* o := kind_header KObj r in
  let* f := kind_header KFloat r in
  hd_and i [b; o; f].

(** ** GoodShortNames (print.go:180-199). The columns are visited in the order
    [order]; invResult maps shorthands to columns. [short_from col n len]: the
    lengths [len], [len]+1, ..., [len]+[n]-1 are tried. *)
Fixpoint short_from (inv : gmap string string) (col : string) (n len : nat) : gmap string string :=
  match n with
  | 0 => inv
  | S n =>
      let candidate := String.substring 0 len col in
      match inv !! candidate with
      | None => <[candidate := col]> inv
      | Some _ => short_from inv col n (S len)
      end
  end.
Definition short_inv (minLength : nat) (order : list string) : gmap string string :=
  foldl (fun inv col => short_from inv col (S (String.length col) - minLength) minLength) ∅ order.
(** The second loop (print.go:194-197), the entries being visited in the order
    [ord]: later entries replace earlier ones. *)
Definition short_result (ord : list (string * string)) : gmap string string :=
  foldl (fun m p => <[p.2 := p.1]> m) ∅ ord.
Definition good_short_names (minLength : Z) (order : list string)
    (ord : gmap string string -> list (string * string)) : gmap string string :=
  let minLength := if decide (minLength <= 0)%Z then 3 else Z.to_nat minLength in
  short_result (ord (short_inv minLength order)).
(** What PrintRecords prints for a column (print.go:150-157). *)
Definition shown_name (shorthands : gmap string string) (col : string) : string :=
  match shorthands !! col with Some s => s | None => col end.
