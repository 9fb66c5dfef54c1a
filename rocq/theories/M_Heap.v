(** The heap: everything Go reaches through a reference. *)
From Verif Require Export M_Base.

(** A Go slice header: backing array, offset, length, capacity (from the
    offset). The nil slice is [Slice 0 0 0 0]. *)
Record slice := Slice { s_arr : nat; s_off : nat; s_len : nat; s_cap : nat }.
Global Instance slice_eq_dec : EqDecision slice.
Proof. solve_decision. Defined.
Definition nil_slice : slice := Slice 0 0 0 0.

(** [h_map]: one entry per group of four Go maps objects/floats/bools/ints of a
    RawData (raw_data.go:19-22). They are created together
    (raw_data.go:488-492, dataframe.go:25-28), replaced together
    (raw_data.go:480-483) and shared together (view.go:410,
    raw_data.go:134-137), so they are one object here.
    [h_str], [h_shr]: the Go maps inside the ColumnHeaders (column_header.go:4-6)
    that are used as stringHeader and as shared respectively. No code path
    assigns one to the other, so they are kept in two separate stores.
    [h_mask]: backing arrays of masks; separate from column arrays, i.e. we
    assume that a mask is never passed to DataBuilder.SetBools. *)
Record heap := Heap {
  h_arr  : list (list val);
  h_mask : list (list bool);
  h_map  : list (gmap key slice);
  h_str  : list (gset string);
  h_shr  : list (gset string) }.

Definition M (A : Type) := heap -> res (A * heap).
Definition ret {A} (a : A) : M A := fun h => Ok (a, h).
Definition bind {A B} (m : M A) (f : A -> M B) : M B :=
  fun h => match m h with Ok (a, h') => f a h' | Panic => Panic end.
Definition panic {A} : M A := fun _ => Panic.
Definition lift {A} (r : res A) : M A :=
  fun h => match r with Ok a => Ok (a, h) | Panic => Panic end.
Notation "'let*' x := m 'in' k" := (bind m (fun x => k))
  (at level 200, x pattern, m at level 100, k at level 200, right associativity).
Notation "m ';;*' k" := (bind m (fun _ => k)) (at level 199, right associativity).

Fixpoint forM {A} (l : list A) (f : A -> M unit) : M unit :=
  match l with [] => ret tt | a :: l => f a ;;* forM l f end.

(** Total read access to the components (a dangling reference does not occur
    in Go; well-formedness in the proofs rules it out). *)
Definition arr (h : heap) (l : nat) : list val := default [] (h_arr h !! l).
Definition marr (h : heap) (l : nat) : list bool := default [] (h_mask h !! l).
Definition mp (h : heap) (l : nat) : gmap key slice := default ∅ (h_map h !! l).
Definition str (h : heap) (l : nat) : gset string := default ∅ (h_str h !! l).
Definition ostr (h : heap) (o : option nat) : gset string :=
  match o with Some l => str h l | None => ∅ end.
Definition shrd (h : heap) (l : nat) : gset string := default ∅ (h_shr h !! l).
Definition oshr (h : heap) (o : option nat) : gset string :=
  match o with Some l => shrd h l | None => ∅ end.

Definition set_arr (h : heap) (l : nat) (a : list val) : heap :=
  Heap (<[l:=a]> (h_arr h)) (h_mask h) (h_map h) (h_str h) (h_shr h).
Definition set_marr (h : heap) (l : nat) (a : list bool) : heap :=
  Heap (h_arr h) (<[l:=a]> (h_mask h)) (h_map h) (h_str h) (h_shr h).
Definition set_mp (h : heap) (l : nat) (m : gmap key slice) : heap :=
  Heap (h_arr h) (h_mask h) (<[l:=m]> (h_map h)) (h_str h) (h_shr h).
Definition set_str (h : heap) (l : nat) (x : gset string) : heap :=
  Heap (h_arr h) (h_mask h) (h_map h) (<[l:=x]> (h_str h)) (h_shr h).
Definition set_shr (h : heap) (l : nat) (x : gset string) : heap :=
  Heap (h_arr h) (h_mask h) (h_map h) (h_str h) (<[l:=x]> (h_shr h)).

(** Allocation: Go's make / composite literals. *)
Definition new_arr (a : list val) : M nat := fun h =>
  Ok (length (h_arr h), Heap (h_arr h ++ [a]) (h_mask h) (h_map h) (h_str h) (h_shr h)).
Definition new_marr (a : list bool) : M nat := fun h =>
  Ok (length (h_mask h), Heap (h_arr h) (h_mask h ++ [a]) (h_map h) (h_str h) (h_shr h)).
Definition new_mp (m : gmap key slice) : M nat := fun h =>
  Ok (length (h_map h), Heap (h_arr h) (h_mask h) (h_map h ++ [m]) (h_str h) (h_shr h)).
Definition new_str (x : gset string) : M nat := fun h =>
  Ok (length (h_str h), Heap (h_arr h) (h_mask h) (h_map h) (h_str h ++ [x]) (h_shr h)).
Definition new_shr (x : gset string) : M nat := fun h =>
  Ok (length (h_shr h), Heap (h_arr h) (h_mask h) (h_map h) (h_str h) (h_shr h ++ [x])).

Definition get_mp (l : nat) : M (gmap key slice) := fun h => Ok (mp h l, h).
Definition put_mp (l : nat) (m : gmap key slice) : M unit := fun h => Ok (tt, set_mp h l m).
Definition get_ostr (o : option nat) : M (gset string) := fun h => Ok (ostr h o, h).
Definition get_oshr (o : option nat) : M (gset string) := fun h => Ok (oshr h o, h).

(** make([]T, n) *)
Definition make_slice (k : kind) (n : nat) : M slice :=
  let* a := new_arr (replicate n (zero_of k)) in ret (Slice a 0 n n).
(** A fresh slice with the given contents (a composite literal, or make
    followed by a loop/copy that fills every cell). *)
Definition lit_slice (vs : list val) : M slice :=
  let* a := new_arr vs in ret (Slice a 0 (length vs) (length vs)).
Definition make_mask (n : nat) : M slice :=
  let* a := new_marr (replicate n false) in ret (Slice a 0 n n).

(** The elements of a slice. *)
Definition sl_vals (h : heap) (s : slice) : list val :=
  take (s_len s) (drop (s_off s) (arr h (s_arr s))).
Definition msl_vals (h : heap) (s : slice) : list bool :=
  take (s_len s) (drop (s_off s) (marr h (s_arr s))).

(** s[i] and s[i] = v; out of range panics. *)
Definition sl_rd (s : slice) (i : nat) : M val := fun h =>
  match sl_vals h s !! i with Some v => Ok (v, h) | None => Panic end.
Definition sl_wr (s : slice) (i : nat) (v : val) : M unit := fun h =>
  if decide (i < s_len s) then
    Ok (tt, set_arr h (s_arr s) (<[s_off s + i := v]> (arr h (s_arr s))))
  else Panic.
Definition msl_wr (s : slice) (i : nat) (b : bool) : M unit := fun h =>
  if decide (i < s_len s) then
    Ok (tt, set_marr h (s_arr s) (<[s_off s + i := b]> (marr h (s_arr s))))
  else Panic.

(** s[from:to] *)
Definition sl_cut_ok (from to : Z) (s : slice) : Prop :=
  (0 <= from /\ from <= to /\ to <= Z.of_nat (s_cap s))%Z.
Global Instance sl_cut_ok_dec from to s : Decision (sl_cut_ok from to s).
Proof. unfold sl_cut_ok. apply _. Defined.
Definition sl_cut (from to : Z) (s : slice) : slice :=
  Slice (s_arr s) (s_off s + Z.to_nat from) (Z.to_nat (to - from)) (s_cap s - Z.to_nat from).

(** An index slice. The arrays behind [indices] are never written after
    their construction (view.go, dataframe.go, csv_writing.go), so the contents
    of the backing array from the offset to the capacity are kept by value. *)
Record ind := Ind { ibuf : list nat; ilen : nat }.
Definition ilist (x : ind) : list nat := take (ilen x) (ibuf x).
Definition mk_ind (l : list nat) : ind := Ind l (length l).
Definition ind_cut (from to : Z) (x : ind) : res ind :=
  if decide (0 <= from /\ from <= to /\ to <= Z.of_nat (length (ibuf x)))%Z
  then Ok (Ind (drop (Z.to_nat from) (ibuf x)) (Z.to_nat (to - from)))
  else Panic.

(** ColumnHeader.add (column_header.go:173-180) called for each element of
    [xs]: allocates the Go map at the first call if it is nil. *)
Definition str_add (o : option nat) (xs : gset string) : M (option nat) :=
  if decide (xs = ∅) then ret o else
  match o with
  | Some l => fun h => Ok (Some l, set_str h l (str h l ∪ xs))
  | None => let* l := new_str xs in ret (Some l)
  end.
Definition shr_add (o : option nat) (xs : gset string) : M (option nat) :=
  if decide (xs = ∅) then ret o else
  match o with
  | Some l => fun h => Ok (Some l, set_shr h l (shrd h l ∪ xs))
  | None => let* l := new_shr xs in ret (Some l)
  end.
(** ColumnHeader.remove (column_header.go:182-189). *)
Definition str_remove (o : option nat) (xs : gset string) : M unit :=
  match o with
  | Some l => fun h => Ok (tt, set_str h l (str h l ∖ xs))
  | None => ret tt
  end.
Definition shr_remove (o : option nat) (xs : gset string) : M unit :=
  match o with
  | Some l => fun h => Ok (tt, set_shr h l (shrd h l ∖ xs))
  | None => ret tt
  end.
