(** RawData and DataFrame: raw_data.go, dataframe.go, view.go, inplace.go,
    column_access.go, conversions.go, concat.go, checks.go of /repo/dataframe. *)
From Verif Require Export M_Heap.

(** RawData (raw_data.go:18-41), without the debugging UIDs. [r_maps] is the
    map object; [r_shared] and [r_strs] are ColumnHeaders, [None] when the Go
    map is nil; [r_enc] identifies textEncoding, [None] for nil. *)
Record raw := Raw {
  r_maps : nat; r_shared : option nat; r_sharedMaps : bool;
  r_enc : option nat; r_cpu : Z; r_strs : option nat }.

(** DataFrame (dataframe.go:10-18), without [debug] and [uid]. A Go method that
    assigns fields of its receiver returns the new receiver here. *)
Record dframe := DF {
  d_raw : raw; d_ind : ind; d_mask : slice; d_viewed : bool; d_mts : bool }.

(** NumRows (dataframe.go:84-86) *)
Definition num_rows (d : dframe) : nat := ilen (d_ind d).
Definition inds (d : dframe) : list nat := ilist (d_ind d).
Definition set_raw (d : dframe) (r : raw) : dframe :=
  DF r (d_ind d) (d_mask d) (d_viewed d) (d_mts d).
Definition set_ind (d : dframe) (x : ind) : dframe :=
  DF (d_raw d) x (d_mask d) (d_viewed d) (d_mts d).
Definition set_mask (d : dframe) (s : slice) : dframe :=
  DF (d_raw d) (d_ind d) s (d_viewed d) (d_mts d).
Definition set_viewed (d : dframe) (b : bool) : dframe :=
  DF (d_raw d) (d_ind d) (d_mask d) b (d_mts d).

(** The set of column names over the four maps, and Header()
    (column_header.go:169-171). *)
Definition names (m : gmap key slice) : gset string :=
  list_to_set ((fun p => p.1.2) <$> map_to_list m).
(** The names of one type: IntHeader, ObjectHeader, FloatHeader, BoolHeader
    (column_header.go:109-158). *)
Definition names_of (k : kind) (m : gmap key slice) : gset string :=
  names (filter (fun p => p.1.1 = k) m).

(** NumColumns (raw_data.go:150-152): the sum of the sizes of the four maps. *)
Definition num_columns (m : gmap key slice) : nat := size m.

(** NumAllocatedRows (raw_data.go:88-102). [ord] is the order in which Go
    iterates over the maps. *)
Definition first_kind (k : kind) (ord : list (key * slice)) : option slice :=
  snd <$> head (filter (fun p => p.1.1 = k) ord).
Definition nar_ord (ord : list (key * slice)) : nat :=
  match first_kind KObj ord with
  | Some s => s_len s
  | None => match first_kind KFloat ord with
    | Some s => s_len s
    | None => match first_kind KInt ord with
      | Some s => s_len s
      | None => match first_kind KBool ord with
        | Some s => s_len s
        | None => 0
        end end end end.
(** Outside ToDataFrame all columns have the same length, so one fixed
    iteration order is enough. *)
Definition num_alloc_rows (m : gmap key slice) : nat := nar_ord (map_to_list m).

Section frame.
Context {rt : GoRT}.

(** SetMaxCPU (raw_data.go:158-165). *)
Definition max_cpu (n : Z) : Z :=
  if decide (n <= 0 \/ rt_ncpu <= n)%Z then rt_ncpu else n.
Definition set_max_cpu (r : raw) (n : Z) : raw :=
  Raw (r_maps r) (r_shared r) (r_sharedMaps r) (r_enc r) (max_cpu n) (r_strs r).
(** ActualMaxCPU (raw_data.go:172-174). *)
Definition actual_max_cpu (r : raw) : Z := r_cpu r.

(** NewRawData and allocateEmptyMaps (raw_data.go:53-58, 488-497). *)
Definition new_raw : M raw :=
  let* l := new_mp ∅ in ret (Raw l None false None (max_cpu (-1)) None).

(** The loops of TransferRawDataFrom (raw_data.go:345-363). The entries of
    [from] replace those of [data]. *)
Definition transfer_loops (data from : raw) : M raw :=
  let* mf := get_mp (r_maps from) in
  let* md := get_mp (r_maps data) in
  put_mp (r_maps data) (mf ∪ md) ;;*
  let* sh := shr_add (r_shared data) (names mf) in
  let* xs := get_ostr (r_strs from) in
  let* st := str_add (r_strs data) xs in
  ret (Raw (r_maps data) sh (r_sharedMaps data) (r_enc data) (r_cpu data) st).

(** reallocateMaps (raw_data.go:477-486): the receiver gets tmp's maps and
    shared header, but keeps its own string header. *)
Definition reallocate_maps (r : raw) : M raw :=
  let* tmp0 := new_raw in
  let* tmp := transfer_loops tmp0 r in
  ret (Raw (r_maps tmp) (r_shared tmp) false (r_enc r) (r_cpu r) (r_strs r)).

(** [if data.sharedMaps { data.reallocateMaps() }] *)
Definition own_maps (r : raw) : M raw :=
  if r_sharedMaps r then reallocate_maps r else ret r.

(** TransferRawDataFrom (raw_data.go:336-364). *)
Definition transfer_raw (data from : raw) : M raw :=
  let* data := own_maps data in transfer_loops data from.

(** Fresh copies of the given columns, stored back in map object [l]
    (the loop bodies of raw_data.go:194-221). *)
Definition get_vals (s : slice) : M (list val) := fun h => Ok (sl_vals h s, h).
Definition put_col (l : nat) (k : key) (s : slice) : M unit :=
  let* m := get_mp l in put_mp l (<[k := s]> m).
Definition copy_cols (l : nat) (cols : list (key * slice)) : M unit :=
  forM cols (fun p =>
    let* vs := get_vals p.2 in
    let* s := lit_slice vs in
    put_col l p.1 s).

(** Unshare (raw_data.go:178-225). *)
Definition unshare (r : raw) (cols : list string) : M raw :=
  let* sh := get_oshr (r_shared r) in
  if negb (r_sharedMaps r) && bool_decide (sh = ∅) then ret r else
  let* r := own_maps r in
  let* m := get_mp (r_maps r) in
  let* sh := get_oshr (r_shared r) in
  let colSet : gset string :=
    if decide (cols = [] \/ length cols = num_columns m)
    then names m else list_to_set cols in
  copy_cols (r_maps r)
    (map_to_list (filter (fun p => p.1.2 ∈ sh /\ p.1.2 ∈ colSet) m)) ;;*
  shr_remove (r_shared r) colSet ;;*
  ret r.

(** Drop (raw_data.go:228-240). *)
Definition drop_cols (r : raw) (cols : list string) : M unit :=
  forM cols (fun c =>
    shr_remove (r_shared r) {[c]} ;;*
    str_remove (r_strs r) {[c]} ;;*
    let* m := get_mp (r_maps r) in
    put_mp (r_maps r)
      (delete (KInt, c) (delete (KBool, c) (delete (KFloat, c) (delete (KObj, c) m))))).

(** Rename (raw_data.go:247-274). *)
Definition rename (r : raw) (old new : string) : M raw :=
  let* r := own_maps r in
  let* m := get_mp (r_maps r) in
  let move (k : kind) (s : slice) : M unit :=
    put_mp (r_maps r) (delete (k, old) (<[(k, new) := s]> m)) in
  let* st :=
    match m !! (KFloat, old) with
    | Some s => move KFloat s ;;* ret (r_strs r)
    | None => match m !! (KObj, old) with
      | Some s =>
          move KObj s ;;*
          let* xs := get_ostr (r_strs r) in
          if decide (old ∈ xs)
          then str_remove (r_strs r) {[old]} ;;* str_add (r_strs r) {[new]}
          else ret (r_strs r)
      | None => match m !! (KInt, old) with
        | Some s => move KInt s ;;* ret (r_strs r)
        | None => match m !! (KBool, old) with
          | Some s => move KBool s ;;* ret (r_strs r)
          | None => panic
          end end end end in
  let* sh := get_oshr (r_shared r) in
  let* sh' := (if decide (old ∈ sh)
               then shr_remove (r_shared r) {[old]} ;;* shr_add (r_shared r) {[new]}
               else ret (r_shared r)) in
  ret (Raw (r_maps r) sh' (r_sharedMaps r) (r_enc r) (r_cpu r) st).

(** AllocInts, AllocFloats, AllocBools, AllocObjects (raw_data.go:277-318). *)
Definition alloc_cols (k : kind) (r : raw) (cols : list string) : M raw :=
  let* r := (if bool_decide (cols = []) then ret r else own_maps r) in
  let* m := get_mp (r_maps r) in
  let n := num_alloc_rows m in
  forM cols (fun c => let* s := make_slice k n in put_col (r_maps r) (k, c) s) ;;*
  ret r.
(** AllocStrings (raw_data.go:321-329). *)
Definition alloc_strings (r : raw) (cols : list string) : M raw :=
  let* r := (if bool_decide (cols = []) then ret r else own_maps r) in
  let* r := alloc_cols KObj r cols in
  let* st := str_add (r_strs r) (list_to_set cols) in
  ret (Raw (r_maps r) (r_shared r) (r_sharedMaps r) (r_enc r) (r_cpu r) st).

(** IntToFloats (raw_data.go:431-444). A missing column reads as the nil
    slice. *)
Definition to_float (v : val) : val :=
  match v with
  | VInt z => VFloat (f64_of_Z z)
  | VBool true => VFloat f64_one
  | _ => VFloat f64_zero
  end.
Definition int_to_floats (r : raw) (cols : list string) : M raw :=
  let* r := own_maps r in
  forM cols (fun c =>
    let* m := get_mp (r_maps r) in
    let* vs := get_vals (default nil_slice (m !! (KInt, c))) in
    let* s := lit_slice (to_float <$> vs) in
    put_mp (r_maps r) (<[(KFloat, c) := s]> (delete (KInt, c) m))) ;;*
  ret r.
(** BoolToFloats (raw_data.go:450-465): deletes from ints, not from bools. *)
Definition bool_to_floats (r : raw) (cols : list string) : M raw :=
  let* r := own_maps r in
  forM cols (fun c =>
    let* m := get_mp (r_maps r) in
    let* vs := get_vals (default nil_slice (m !! (KBool, c))) in
    let* s := lit_slice (to_float <$> vs) in
    put_mp (r_maps r) (<[(KFloat, c) := s]> (delete (KInt, c) m))) ;;*
  ret r.

(** MergeRawDataColumns (raw_data.go:369-377). *)
Fixpoint merge_columns_loop (result : raw) (l : list raw) : M raw :=
  match l with
  | [] => ret result
  | e :: l =>
      let* r := transfer_raw result e in
      merge_columns_loop (Raw (r_maps r) (r_shared r) (r_sharedMaps r) (r_enc e)
                              (r_cpu e) (r_strs r)) l
  end.
Definition merge_raw_columns (l : list raw) : M raw :=
  let* r := new_raw in merge_columns_loop r l.

(** append(s, vs...) on column data: in place when the capacity suffices. *)
Definition sl_append (k : kind) (s : slice) (vs : list val) : M slice := fun h =>
  let n := s_len s + length vs in
  if decide (n <= s_cap s) then
    let a := arr h (s_arr s) in
    let p := s_off s + s_len s in
    Ok (Slice (s_arr s) (s_off s) n (s_cap s),
        set_arr h (s_arr s) (take p a ++ vs ++ drop (p + length vs) a))
  else
    let c := rt_grow (s_cap s) n in
    (let* l := new_arr (sl_vals h s ++ vs ++ replicate (c - n) (zero_of k)) in
     ret (Slice l 0 n c)) h.

(** make([]T, 0, size) *)
Definition make_empty_cap (k : kind) (n : nat) : M slice :=
  let* a := new_arr (replicate n (zero_of k)) in ret (Slice a 0 0 n).

(** MergeRawDataRows (raw_data.go:386-425). *)
Definition merge_raw_rows (l : list raw) : M raw :=
  let* result := new_raw in
  match l with
  | [] => ret result
  | first :: _ =>
      let* sizes := (fun h => Ok ((fun r => num_alloc_rows (mp h (r_maps r))) <$> l, h)) in
      let size := sum_list sizes in
      let* m0 := get_mp (r_maps first) in
      forM (map_to_list m0) (fun p =>
        let* s := make_empty_cap p.1.1 size in put_col (r_maps result) p.1 s) ;;*
      forM l (fun data =>
        let* m := get_mp (r_maps data) in
        forM (map_to_list m) (fun p =>
          let* vs := get_vals p.2 in
          let* mr := get_mp (r_maps result) in
          let* s := sl_append p.1.1 (default nil_slice (mr !! p.1)) vs in
          put_col (r_maps result) p.1 s)) ;;*
      ret result
  end.

(** ToDataFrame (raw_data.go:108-147); [ord] is the iteration order used by
    NumAllocatedRows. *)
Definition to_dataframe_ord (ord : list (key * slice)) (r : raw) : M dframe :=
  let* m := get_mp (r_maps r) in
  let n := nar_ord ord in
  if decide (map_Forall (fun _ s => s_len s = n) m) then
    let* mask := make_mask n in
    ret (DF (Raw (r_maps r) None false (r_enc r) (r_cpu r) (r_strs r))
            (mk_ind (seq 0 n)) mask false false)
  else panic.
Definition to_dataframe (r : raw) : M dframe :=
  let* m := get_mp (r_maps r) in to_dataframe_ord (map_to_list m) r.

(** EmptyDataFrame (dataframe.go:23-39). MakeRange(0, n, 1) is [seq 0 n]
    (see M_Utils for MakeRange itself). *)
Definition empty_df (n : Z) (cpu : Z) : M dframe :=
  let* l := new_mp ∅ in
  if decide (0 < n)%Z then
    let* mask := make_mask (Z.to_nat n) in
    ret (DF (Raw l None false None cpu None) (mk_ind (seq 0 (Z.to_nat n))) mask false false)
  else
    ret (DF (Raw l None false None cpu None) (mk_ind []) nil_slice false false).

(** ZeroMask and EmptyMask (dataframe.go:53-63, 75-81): they return a slice. *)
Definition mask_prefix (d : dframe) : M slice :=
  if decide (num_rows d <= s_cap (d_mask d))
  then ret (Slice (s_arr (d_mask d)) (s_off (d_mask d)) (num_rows d) (s_cap (d_mask d)))
  else panic.
Definition zero_mask (d : dframe) : M slice :=
  if d_mts d then make_mask (num_rows d) else
  forM (seq 0 (num_rows d)) (fun i => msl_wr (d_mask d) i false) ;;*
  mask_prefix d.
Definition empty_mask (d : dframe) : M slice :=
  if d_mts d then make_mask (num_rows d) else mask_prefix d.

(** ThreadSafeMasking (dataframe.go:90-93). *)
Definition thread_safe_masking (d : dframe) (b : bool) : dframe :=
  DF (d_raw d) (d_ind d) (d_mask d) (d_viewed d) b.

(** ShallowCopy (dataframe.go:108-120). *)
Definition shallow_copy (d : dframe) : M dframe :=
  let* e := empty_df (-1) (r_cpu (d_raw d)) in
  let* r := transfer_raw (d_raw e) (d_raw d) in
  ret (DF r (d_ind d) (d_mask d) (d_viewed d) (d_mts d)).

(** [for j, index := range indices { series[j] = v[index] }] *)
Fixpoint gather (s : slice) (l : list nat) : M (list val) :=
  match l with
  | [] => ret []
  | i :: l => let* v := sl_rd s i in let* r := gather s l in ret (v :: r)
  end.

(** ColumnHeader.Copy (column_header.go:94-105). *)
Definition str_copy (o : option nat) : M (option nat) :=
  match o with
  | None => ret None
  | Some _ => let* xs := get_ostr o in let* l := new_str xs in ret (Some l)
  end.

(** Copy (dataframe.go:126-187). *)
Definition copy_df (d : dframe) : M dframe :=
  let* e := empty_df (Z.of_nat (num_rows d)) (r_cpu (d_raw d)) in
  let* st := str_copy (r_strs (d_raw d)) in
  let* m := get_mp (r_maps (d_raw d)) in
  let l := r_maps (d_raw e) in
  forM (map_to_list m) (fun p =>
    let* vs := (if d_viewed d then gather p.2 (inds d) else get_vals p.2) in
    let* s := lit_slice vs in
    put_col l p.1 s) ;;*
  ret (DF (Raw l None false None (r_cpu (d_raw d)) st)
          (d_ind e) (d_mask e) false (d_mts d)).

(** View (view.go:409-414). *)
Definition view (d : dframe) : dframe :=
  set_raw d (Raw (r_maps (d_raw d)) (r_shared (d_raw d)) true
                 (r_enc (d_raw d)) (r_cpu (d_raw d)) (r_strs (d_raw d))).

(** append(mask, make([]bool, diff)...) (view.go:34) *)
Definition mask_append (s : slice) (diff : nat) : M slice := fun h =>
  let n := s_len s + diff in
  if decide (n <= s_cap s) then
    let a := marr h (s_arr s) in
    let p := s_off s + s_len s in
    Ok (Slice (s_arr s) (s_off s) n (s_cap s),
        set_marr h (s_arr s) (take p a ++ replicate diff false ++ drop (p + diff) a))
  else
    let c := rt_grow (s_cap s) n in
    (let* l := new_marr (msl_vals h s ++ replicate (c - s_len s) false) in
     ret (Slice l 0 n c)) h.

(** IndexView (view.go:24-39). *)
Definition index_view (d : dframe) (l : list Z) : M dframe :=
  let* is := lift (res_mapM (idx (inds d)) l) in
  let result := set_ind (view d) (mk_ind is) in
  let* mask := (if decide (num_rows d < length l)
                then mask_append (d_mask d) (length l - num_rows d)
                else ret (d_mask d)) in
  ret (set_viewed (set_mask result mask) true).

(** ReverseView (view.go:316-325). *)
Definition reverse_view (d : dframe) : dframe :=
  set_viewed (set_ind (view d) (mk_ind (reverse (inds d)))) true.

(** cut (inplace.go:211-243). *)
Definition cut (d : dframe) (from to : Z) : M dframe :=
  let* m := get_mp (r_maps (d_raw d)) in
  let worth := bool_decide (to - from > 10 * Z.of_nat (num_columns m))%Z in
  if d_viewed d || (r_sharedMaps (d_raw d) && negb worth) then
    let* x := lift (ind_cut from to (d_ind d)) in
    ret (set_viewed (set_ind d x) true)
  else
    let* r := own_maps (d_raw d) in
    let* x := lift (ind_cut 0 (to - from) (d_ind d)) in
    let* m := get_mp (r_maps r) in
    if decide (map_Forall (fun _ s => sl_cut_ok from to s) m) then
      put_mp (r_maps r) (sl_cut from to <$> m) ;;*
      let* sh := shr_add (r_shared r) (names m) in
      ret (set_ind (set_raw d (Raw (r_maps r) sh (r_sharedMaps r) (r_enc r)
                                   (r_cpu r) (r_strs r))) x)
    else panic.

(** SliceView (view.go:46-60). *)
Definition slice_view (d : dframe) (from to : Z) : M dframe :=
  let n := Z.of_nat (num_rows d) in
  let from := if decide (from < 0)%Z then (from + (n + 1))%Z else from in
  let to := if decide (to < 0)%Z then (to + (n + 1))%Z else to in
  if decide (from > to)%Z
  then cut (view (reverse_view d)) to from
  else cut (view d) from to.

(** MaskView (view.go:73-87). The indices are collected in a slice of length
    len(mask), then truncated; what lies beyond the length is zero. *)
Fixpoint mask_loop (ix : list nat) (j : nat) (mask : list bool) : res (list nat) :=
  match mask with
  | [] => Ok []
  | true :: mask =>
      match ix !! j with
      | Some i => let? r := mask_loop ix (S j) mask in Ok (i :: r)
      | None => Panic
      end
  | false :: mask => mask_loop ix (S j) mask
  end.
Definition mask_view (d : dframe) (mask : list bool) : M dframe :=
  let* is := lift (mask_loop (inds d) 0 mask) in
  let x := Ind (is ++ replicate (length mask - length is) 0) (length is) in
  ret (set_viewed (set_ind (view d) x) true).

(** ColumnView (view.go:90-128). [result.shared] is still df's header when
    add is called on it. *)
Definition column_view (d : dframe) (cols : list string) : M dframe :=
  if decide (cols = []) then ret (view d) else
  let r := d_raw d in
  let* l := new_mp ∅ in
  let* sh := shr_add (r_shared r) (list_to_set cols) in
  let* strs := get_ostr (r_strs r) in
  let* m := get_mp (r_maps r) in
  let sel := filter (fun p => p.1.2 ∈ cols) m in
  put_mp l sel ;;*
  let* st := str_add None (names_of KObj sel ∩ strs) in
  ret (set_raw (view d) (Raw l sh false (r_enc r) (r_cpu r) st)).

(** rand.Shuffle as used by ShuffleView (view.go:137-141): for i from n-1 down
    to 1, swap i with a position drawn in 0..i. [rnd] provides the draws. *)
Definition swap (i j : nat) (l : list nat) : list nat :=
  match l !! i, l !! j with
  | Some a, Some b => <[j := a]> (<[i := b]> l)
  | _, _ => l
  end.
Fixpoint shuffle_loop (rnd : nat -> nat) (i : nat) (l : list nat) : list nat :=
  match i with
  | 0 => l
  | S i' => shuffle_loop rnd i' (swap i (rnd i mod (S i)) l)
  end.
Definition shuffle (rnd : nat -> nat) (l : list nat) : list nat :=
  shuffle_loop rnd (length l - 1) l.
Definition shuffle_view (rnd : nat -> nat) (d : dframe) : M dframe :=
  index_view d (Z.of_nat <$> shuffle rnd (seq 0 (num_rows d))).

(** SampleView (view.go:147-160). *)
Definition sample_view (rnd : nat -> nat) (d : dframe) (n : Z) (replacement : bool) : M dframe :=
  if replacement then panic else
  if decide (n > Z.of_nat (num_rows d))%Z then panic else
  let* v := shuffle_view rnd d in
  let* x := lift (ind_cut 0 n (d_ind v)) in
  ret (set_ind v x).

(** SplitView (view.go:199-225). *)
Fixpoint split_loop (d : dframe) (n : nat) (i b : Z) : M (list dframe) :=
  match n with
  | 0 => ret []
  | 1 => let* v := cut (view d) i (Z.of_nat (num_rows d)) in ret [v]
  | S n' => let* v := cut (view d) i (i + b) in
            let* r := split_loop d n' (i + b) b in ret (v :: r)
  end.
Definition split_view (d : dframe) (b : Z) : M (list dframe) :=
  if decide (b <= 0)%Z then panic else
  let rows := Z.of_nat (num_rows d) in
  let n := (if decide (rows mod b = 0) then rows / b else rows / b + 1)%Z in
  if decide (n <= 1)%Z then ret [view d] else split_loop d (Z.to_nat n) 0 b.

(** SplitNView (view.go:166-194): the padding entries are all the same empty
    dataframe. *)
Definition split_n_view (d : dframe) (n : Z) : M (list dframe) :=
  if decide (n < 0)%Z then panic else
  if decide (n = 0)%Z then ret [] else
  if decide (n = 1%Z \/ num_rows d = 0) then ret [view d] else
  let rows := Z.of_nat (num_rows d) in
  let b := (if decide (rows mod n = 0) then rows / n else rows / n + 1)%Z in
  let* result := split_view d b in
  let missing := (n - Z.of_nat (length result))%Z in
  if decide (0 < missing)%Z then
    let* e := empty_df 0 (r_cpu (d_raw d)) in
    ret (result ++ replicate (Z.to_nat missing) e)
  else ret result.

(** Go's int(float64): truncation towards zero. For NaN, infinities and values
    outside int64 Go leaves the result to the implementation; amd64 returns
    the minimal int64. *)
Definition f64_trunc (x : f64) : Z :=
  match x with
  | S754_zero _ => 0
  | S754_finite s m e =>
      let a := (match e with
                | Z0 => Z.pos m
                | Zpos p => Z.pos m * 2 ^ Z.pos p
                | Zneg p => Z.pos m / 2 ^ Z.pos p
                end)%Z in
      let v := if s then (- a)%Z else a in
      if decide (- 2 ^ 63 <= v < 2 ^ 63)%Z then v else (- 2 ^ 63)%Z
  | _ => (- 2 ^ 63)%Z
  end.

(** SplitTrainTestViews (view.go:233-243). *)
Definition split_train_test (d : dframe) (ratio : f64) : M (dframe * dframe) :=
  if f64_lt ratio f64_zero || f64_lt f64_one ratio then panic else
  let rows := Z.of_nat (num_rows d) in
  let n := f64_trunc (f64_mul (f64_of_Z rows) ratio) in
  let* train := slice_view d 0 (rows - n) in
  let* test := slice_view d (rows - n) rows in
  ret (train, test).

(** SortedView (view.go:251-280). [asort] is utils.FloatArgSort, i.e. gonum's
    floats.Argsort (utils.go:17-29): an unstable sort, hence a parameter. *)
Definition is_true (v : val) : bool := match v with VBool true => true | _ => false end.
Definition as_float (v : val) : f64 :=
  match v with VFloat f => f | VInt z => f64_of_Z z | _ => f64_zero end.
Definition sorted_view (asort : list f64 -> list nat) (d : dframe) (c : string) : M dframe :=
  let* m := get_mp (r_maps (d_raw d)) in
  match m !! (KBool, c) with
  | Some s =>
      let* vs := gather s (inds d) in
      let pos := zip (seq 0 (length vs)) vs in
      let first := fst <$> filter (fun p => is_true p.2 = false) pos in
      let last := fst <$> filter (fun p => is_true p.2 = true) pos in
      index_view d (Z.of_nat <$> first ++ last)
  | None =>
      let* vs := match m !! (KFloat, c) with
                 | Some s => gather s (inds d)
                 | None => match m !! (KInt, c) with
                           | Some s => gather s (inds d)
                           | None => panic
                           end
                 end in
      index_view d (Z.of_nat <$> asort (as_float <$> vs))
  end.

(** TopView (view.go:293-313). When all rows are requested unsorted, Go returns
    the receiver itself, see [top_view_self]. *)
Definition top_view_self (d : dframe) (n : Z) (sorted : bool) : bool :=
  bool_decide (Z.of_nat (num_rows d) <= n)%Z && negb sorted.
Definition top_view (asort : list f64 -> list nat) (d : dframe) (c : string)
    (n : Z) (ascending sorted : bool) : M dframe :=
  let rows := Z.of_nat (num_rows d) in
  if top_view_self d n sorted then ret d else
  let n := if decide (rows <= n)%Z then rows else n in
  if decide (n < 0)%Z then panic else
  let* v := sorted_view asort d c in
  if ascending then
    let* x := lift (ind_cut 0 n (d_ind v)) in ret (set_ind v x)
  else
    let* x := lift (ind_cut (rows - n) (Z.of_nat (num_rows v)) (d_ind v)) in
    let v := set_ind v x in
    ret (if sorted then reverse_view v else v).

(** ResetIndexView (view.go:423-430); sort.Ints is any sorting function on
    integers, they all agree. *)
Definition reset_index_view (d : dframe) : dframe :=
  set_ind (view d) (mk_ind (merge_sort le (inds d))).

(** DetachedView (view.go:394-400). *)
Definition detached_view (d : dframe) (cols : list string) : M dframe :=
  let* r := unshare (d_raw (view d)) cols in ret (set_raw d r).

(** FNV-1a, 64 bits (hash/fnv, used at view.go:332-345). *)
Definition fnv_step (h : N) (c : Ascii.ascii) : N :=
  (N.lxor h (Ascii.N_of_ascii c) * 1099511628211) mod 2 ^ 64.
Fixpoint fnv_loop (h : N) (s : string) : N :=
  match s with
  | EmptyString => h
  | String c s => fnv_loop (fnv_step h c) s
  end.
Definition fnv1a (s : string) : N := fnv_loop 14695981039346656037 s.
(** maxInt on a 64-bit system (view.go:329). *)
Definition max_int : N := 9223372036854775807.
Definition hash_val (v : val) : val :=
  match v with
  | VObj (OStr s) => VInt (Z.of_N (fnv1a s mod max_int))
  | _ => VInt (-1)
  end.

(** What a worker does for one column (view.go:335-350). *)
Definition hash_column (d out : dframe) (c : string) : M unit :=
  let* mi := get_mp (r_maps (d_raw d)) in
  let* mo := get_mp (r_maps (d_raw out)) in
  let input := default nil_slice (mi !! (KObj, c)) in
  let output := default nil_slice (mo !! (KInt, c)) in
  forM (inds d) (fun i => let* v := sl_rd input i in sl_wr output i (hash_val v)).

(** HashStringsView (view.go:361-384), the columns being processed one after
    the other in the given order; M_Pool treats arbitrary schedules. *)
Definition hash_strings_view (d : dframe) (cols : list string) : M dframe :=
  if decide (cols = []) then ret (view d) else
  let* m := get_mp (r_maps (d_raw d)) in
  let others := elements (names m ∖ list_to_set cols) in
  let* result := column_view d others in
  let n := num_alloc_rows m in
  forM cols (fun c =>
    let* s := make_slice KInt n in put_col (r_maps (d_raw result)) (KInt, c) s) ;;*
  forM cols (hash_column d result) ;;*
  ret result.

(** Column access (column_access.go:45-107): the slice behind a column. *)
Definition access (k : kind) (d : dframe) (c : string) : M slice :=
  let* m := get_mp (r_maps (d_raw d)) in
  match m !! (k, c) with Some s => ret s | None => panic end.
(** Strings(c) (column_access.go:95-107). *)
Definition access_str (d : dframe) (c : string) : M slice :=
  let* s := access KObj d c in
  let* xs := get_ostr (r_strs (d_raw d)) in
  if decide (c ∈ xs) then ret s else panic.
(** access.Get(row) and access.Set(row, v) (column_access.go:147-194). *)
Definition acc_get (d : dframe) (s : slice) (row : Z) : M val :=
  let* i := lift (idx (inds d) row) in sl_rd s i.
Definition acc_set (d : dframe) (s : slice) (row : Z) (v : val) : M unit :=
  let* i := lift (idx (inds d) row) in sl_wr s i v.
(** df.Ints(c).Get(row), etc. *)
Definition get_cell (k : kind) (d : dframe) (c : string) (row : Z) : M val :=
  let* s := access k d c in acc_get d s row.
Definition set_cell (k : kind) (d : dframe) (c : string) (row : Z) (v : val) : M unit :=
  let* s := access k d c in acc_set d s row v.
(** VecDenseCopy and VecDense (column_access.go:124-142), as lists. *)
Definition vec_dense_copy (d : dframe) (c : string) : M (list val) :=
  let* s := access KFloat d c in gather s (inds d).
Definition vec_dense (d : dframe) (c : string) : M (list val) :=
  let* s := access KFloat d c in
  if d_viewed d then gather s (inds d) else get_vals s.

(** [for j, i := range df.indices { col[i] = values[j] }] *)
Fixpoint write_loop (s : slice) (l : list nat) (vs : list val) : M unit :=
  match l, vs with
  | [], _ => ret tt
  | i :: l, v :: vs => sl_wr s i v ;;* write_loop s l vs
  | _ :: _, [] => panic
  end.
(** OverwriteInts, OverwriteFloats64, OverwriteFloats32, OverwriteBools,
    OverwriteObjects and OverwriteStrings (inplace.go:88-209). [strs] tells
    whether a missing column is created with AllocStrings. *)
Definition overwrite (k : kind) (strs : bool) (d : dframe) (c : string) (vs : list val)
    : M dframe :=
  let* m := get_mp (r_maps (d_raw d)) in
  let col := default nil_slice (m !! (k, c)) in
  if decide (s_len col = 0) then
    let* r := (if strs then alloc_strings (d_raw d) [c] else alloc_cols k (d_raw d) [c]) in
    let* m := get_mp (r_maps r) in
    let col := default nil_slice (m !! (k, c)) in
    write_loop col (inds d) vs ;;* ret (set_raw d r)
  else write_loop col (inds d) vs ;;* ret d.

(** CopyValuesToInterfaces (conversions.go:9-37): the values, each packed into
    an interface{}. *)
Definition copy_values (d : dframe) (c : string) : M (list val) :=
  let* m := get_mp (r_maps (d_raw d)) in
  match m !! (KObj, c) with
  | Some s => gather s (inds d)
  | None => match m !! (KFloat, c) with
    | Some s => gather s (inds d)
    | None => match m !! (KInt, c) with
      | Some s => gather s (inds d)
      | None => match m !! (KBool, c) with
        | Some s => gather s (inds d)
        | None => panic
        end end end end.

(** LabelToInt (conversions.go:45-67). *)
Fixpoint label_loop (mapping : gmap string Z) (vs : list val)
    : res (list Z * gmap string Z) :=
  match vs with
  | [] => Ok ([], mapping)
  | VObj ONil :: vs => let? r := label_loop mapping vs in Ok ((-1)%Z :: r.1, r.2)
  | VObj (OStr s) :: vs =>
      match mapping !! s with
      | Some o => let? r := label_loop mapping vs in Ok (o :: r.1, r.2)
      | None =>
          let o := Z.of_nat (size mapping) in
          let? r := label_loop (<[s := o]> mapping) vs in Ok (o :: r.1, r.2)
      end
  | _ :: _ => Panic
  end.
Definition label_to_int (d : dframe) (c : string) : M (list Z * gmap string Z) :=
  let* xs := get_ostr (r_strs (d_raw d)) in
  if decide (c ∈ xs) then
    let* m := get_mp (r_maps (d_raw d)) in
    let* vs := gather (default nil_slice (m !! (KObj, c))) (inds d) in
    lift (label_loop ∅ vs)
  else panic.

(** ** Concatenation (concat.go, checks.go). An error return is [None]. *)

(** [for j, i := range df.indices { vals[j + offset] = from[i] }] *)
Fixpoint copy_at (dst src : slice) (off : nat) (l : list nat) : M unit :=
  match l with
  | [] => ret tt
  | i :: l => let* v := sl_rd src i in sl_wr dst off v ;;* copy_at dst src (S off) l
  end.
(** The four column loops for one dataframe (concat.go:41-76). *)
Fixpoint row_concat_cols (d : dframe) (off : nat) (cols : list (key * slice)) : M bool :=
  match cols with
  | [] => ret true
  | (k, dst) :: cols =>
      let* m := get_mp (r_maps (d_raw d)) in
      match m !! k with
      | Some src => copy_at dst src off (inds d) ;;* row_concat_cols d off cols
      | None => ret false
      end
  end.
Fixpoint row_concat_loop (l : nat) (st : option nat) (off : nat) (dfs : list dframe)
    : M (option (option nat)) :=
  match dfs with
  | [] => ret (Some st)
  | d :: dfs =>
      let* xs := get_ostr (r_strs (d_raw d)) in
      (* And (column_header.go:79-91) allocates when the Go map is nil *)
      let* st := (match st with
                  | None => let* x := new_str xs in ret (Some x)
                  | Some _ => str_add st xs
                  end) in
      let* m := get_mp l in
      let* ok := row_concat_cols d off (map_to_list m) in
      if ok : bool then row_concat_loop l st (off + num_rows d) dfs else ret None
  end.
(** RowConcat (concat.go:13-80). *)
Definition row_concat (dfs : list dframe) : M (option dframe) :=
  match dfs with
  | [] => ret None
  | d0 :: _ =>
      let n := sum_list (num_rows <$> dfs) in
      let* e := empty_df (Z.of_nat n) (r_cpu (d_raw d0)) in
      let l := r_maps (d_raw e) in
      let* m0 := get_mp (r_maps (d_raw d0)) in
      forM (map_to_list m0) (fun p => let* s := make_slice p.1.1 n in put_col l p.1 s) ;;*
      let* ok := row_concat_loop l None 0 dfs in
      match ok with
      | None => ret None
      | Some st => ret (Some (set_raw e (Raw l None false None (r_cpu (d_raw d0)) st)))
      end
  end.

(** CheckNoColumnOverlap (checks.go:12-41): true when there is no overlap. A
    name present under two types of one dataframe counts as an overlap. *)
Fixpoint no_overlap_names (seen : gset string) (l : list string) : option (gset string) :=
  match l with
  | [] => Some seen
  | c :: l => if decide (c ∈ seen) then None else no_overlap_names ({[c]} ∪ seen) l
  end.
Fixpoint no_overlap (seen : gset string) (ms : list (gmap key slice)) : bool :=
  match ms with
  | [] => true
  | m :: ms =>
      match no_overlap_names seen ((fun p => p.1.2) <$> map_to_list m) with
      | None => false
      | Some seen => no_overlap seen ms
      end
  end.

(** HashIntSlice (utils.go:44-50) with 64-bit wrap-around. *)
Definition wrap64 (z : Z) : Z := ((z + 2 ^ 63) mod 2 ^ 64 - 2 ^ 63)%Z.
Definition hash_int_slice (l : list nat) : Z :=
  foldl (fun acc v => wrap64 (7 * acc + Z.of_nat v)) (Z.of_nat (length l)) l.

(** ColumnConcatView (concat.go:109-152). The result of And at line 149 is
    discarded: it has an effect only if the string header is not nil. *)
Fixpoint concat_view_loop (r : raw) (dfs : list dframe) : M raw :=
  match dfs with
  | [] => ret r
  | d :: dfs =>
      let* m := get_mp (r_maps (d_raw d)) in
      let* mr := get_mp (r_maps r) in
      put_mp (r_maps r) (m ∪ mr) ;;*
      let* sh := shr_add (r_shared r) (names m) in
      let* xs := get_ostr (r_strs (d_raw d)) in
      (match r_strs r with
       | Some _ => let* _ := str_add (r_strs r) xs in ret tt
       | None => ret tt
       end) ;;*
      concat_view_loop (Raw (r_maps r) sh (r_sharedMaps r) (r_enc r) (r_cpu r) (r_strs r)) dfs
  end.
Definition column_concat_view (dfs : list dframe) : M (option dframe) :=
  let* ms := (fun h => Ok ((fun d => mp h (r_maps (d_raw d))) <$> dfs, h)) in
  if negb (no_overlap ∅ ms) then ret None else
  match dfs with
  | [] => panic
  | d0 :: rest =>
      let views := existsb d_viewed dfs in
      if views && negb (forallb (fun d => bool_decide (hash_int_slice (inds d) =
                                                      hash_int_slice (inds d0))) rest)
      then ret None
      else
        let* v := shallow_copy d0 in
        let* r := concat_view_loop (d_raw v) rest in
        ret (Some (set_raw v r))
  end.

Fixpoint mapM_df {A} (f : dframe -> M A) (l : list dframe) : M (list A) :=
  match l with
  | [] => ret []
  | d :: l => let* x := f d in let* r := mapM_df f l in ret (x :: r)
  end.

(** ColumnCopyConcat (concat.go:161-183). *)
Definition column_copy_concat (dfs : list dframe) : M (option dframe) :=
  match dfs with
  | [] => panic
  | d0 :: rest =>
      if forallb (fun d => bool_decide (num_rows d = num_rows d0)) rest then
        let* copies := mapM_df copy_df dfs in
        let* o := column_concat_view copies in
        match o with
        | None => ret None
        | Some v =>
            let r := d_raw v in
            ret (Some (set_raw v (Raw (r_maps r) None (r_sharedMaps r) (r_enc r)
                                      (r_cpu r) (r_strs r))))
        end
      else ret None
  end.

(** ColumnSmartConcat (concat.go:91-100). *)
Definition column_smart_concat (dfs : list dframe) : M (option dframe) :=
  let* o := column_concat_view dfs in
  match o with
  | Some v => ret (Some v)
  | None => column_copy_concat dfs
  end.

End frame.
