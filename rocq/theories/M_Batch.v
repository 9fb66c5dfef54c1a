(** Row iterators and gonum batching: float_batching.go, row_iterators.go,
    dense_gonum_batching.go. *)
From Verif Require Export M_Frame Spec_Batch.

(** FloatBatching (float_batching.go:7-13), initialized: the columns, and for
    each type the positions of its columns. *)
Record batching := Batching {
  b_columns : list string; b_f : list nat; b_b : list nat; b_i : list nat }.
(** initialize (float_batching.go:22-43). *)
Fixpoint batch_loop (m : gmap key slice) (i : nat) (cols : list string) (b : batching) : res batching :=
  match cols with
  | [] => Ok b
  | c :: cols =>
      if decide (is_Some (m !! (KFloat, c))) then
        batch_loop m (S i) cols (Batching (b_columns b) (b_f b ++ [i]) (b_b b) (b_i b))
      else if decide (is_Some (m !! (KBool, c))) then
        batch_loop m (S i) cols (Batching (b_columns b) (b_f b) (b_b b ++ [i]) (b_i b))
      else if decide (is_Some (m !! (KInt, c))) then
        batch_loop m (S i) cols (Batching (b_columns b) (b_f b) (b_b b) (b_i b ++ [i]))
      else Panic
  end.
Definition batch_init (d : dframe) (cols : list string) : M batching :=
  let* m := get_mp (r_maps (d_raw d)) in lift (batch_loop m 0 cols (Batching cols [] [] [])).
Definition col_name (b : batching) (i : nat) : string := default "" (b_columns b !! i).

(** RowIterator and Float32Iterator (row_iterators.go:7-22). The buffers [rows]
    belong to the iterator. *)
Record iterator := Iterator {
  it_bat : batching; it_df : dframe; it_off : nat; it_ix : nat;
  it_sub : list nat; it_rows : list (list f64) }.
(** NewFloat32Iterator (row_iterators.go:76-85). *)
Definition new_iterator (d : dframe) (cols : list string) : M iterator :=
  let* b := batch_init d cols in
  ret (Iterator b d 0 0 [] (replicate 128 (replicate (length cols) f64_zero))).
(** Reset (row_iterators.go:35-59). *)
Definition has_all (m : gmap key slice) (k : kind) (b : batching) (l : list nat) : bool :=
  forallb (fun i => bool_decide (is_Some (m !! (k, col_name b i)))) l.
Definition it_reset (it : iterator) (d : dframe) (check : bool) : M iterator :=
  let* m := get_mp (r_maps (d_raw d)) in
  let b := it_bat it in
  if check && negb (has_all m KBool b (b_b b) && has_all m KInt b (b_i b) && has_all m KFloat b (b_f b))
  then panic
  else ret (Iterator b d 0 0 (it_sub it) (it_rows it)).

(** [for j, i := range indices { ite.rows[j][colIx] = ... }] *)
Fixpoint put_column (x : nat) (vs : list f64) (rows : list (list f64)) : res (list (list f64)) :=
  match vs, rows with
  | [], _ => Ok rows
  | v :: vs, row :: rows =>
      if decide (x < length row) then
        match put_column x vs rows with Ok r => Ok (<[x := v]> row :: r) | Panic => Panic end
      else Panic
  | _ :: _, [] => Panic
  end.
Fixpoint load_columns (d : dframe) (b : batching) (k : kind) (inds : list nat) (xs : list nat) (rows : list (list f64))
  : M (list (list f64)) :=
  match xs with
  | [] => ret rows
  | x :: xs =>
      let* m := get_mp (r_maps (d_raw d)) in
      let* vs := gather (default nil_slice (m !! (k, col_name b x))) inds in
      let* rows := lift (put_column x (f32_of_val <$> vs) rows) in
      load_columns d b k inds xs rows
  end.
(** NextRow (row_iterators.go:93-131) with nextIndices (row_iterators.go:61-69).
    The row returned is a buffer of the iterator; here its contents. *)
Definition next_row (it : iterator) : M (option (list f64) * nat * nat * iterator) :=
  let d := it_df it in
  let* m := get_mp (r_maps (d_raw d)) in
  if decide (it_ix it = num_rows d) then ret (None, num_rows d, num_alloc_rows m, it) else
  let* it := (if decide (it_off it = 0) then
                let* sub := (if decide (it_ix it <= (it_ix it + 128) `min` num_rows d)
                             then ret (take ((it_ix it + 128) `min` num_rows d - it_ix it) (drop (it_ix it) (inds d)))
                             else panic) in
                let* rows := load_columns d (it_bat it) KBool sub (b_b (it_bat it)) (it_rows it) in
                let* rows := load_columns d (it_bat it) KInt sub (b_i (it_bat it)) rows in
                let* rows := load_columns d (it_bat it) KFloat sub (b_f (it_bat it)) rows in
                ret (Iterator (it_bat it) d 0 (it_ix it) sub rows)
              else ret it) in
  match it_rows it !! it_off it, it_sub it !! it_off it with
  | Some row, Some i =>
      ret (Some row, it_ix it, i,
           Iterator (it_bat it) d ((it_off it + 1) mod length (it_rows it)) (it_ix it + 1) (it_sub it) (it_rows it))
  | _, _ => panic
  end.
(** The user may overwrite the row just delivered: buffer number
    [it_off - 1] modulo 128. *)
Definition edit_row (it : iterator) (vs : list f64) : iterator :=
  let j := (it_off it + 127) mod 128 in
  match it_rows it !! j with
  | Some row => if decide (length vs = length row)
                then Iterator (it_bat it) (it_df it) (it_off it) (it_ix it) (it_sub it) (<[j := vs]> (it_rows it))
                else it
  | None => it
  end.

(** ** Dense64Batching (dense_gonum_batching.go:7-10). [db_buf] is the array
    behind data, up to its capacity. *)
Record dense := Dense { db_cols : list string; db_bat : option batching; db_buf : list f64; db_len : nat }.
Definition new_dense (cols : list string) : dense := Dense cols None [] 0.

Section batch.
Context {rt : GoRT}.
(** [append(bat.data, make([]float64, missing)...)] *)
Definition grow_data (buf : list f64) (len missing : nat) : list f64 :=
  let n := len + missing in
  if decide (n <= length buf) then take len buf ++ replicate missing f64_zero ++ drop n buf
  else take len buf ++ replicate (rt_grow (length buf) n - len) f64_zero.
(** [subslice := bat.data[nRows * colIx:]]: writes beyond the length panic. *)
Fixpoint write_data (pos len : nat) (vs : list f64) (buf : list f64) : res (list f64) :=
  match vs with
  | [] => Ok buf
  | v :: vs => if decide (pos < len) then write_data (S pos) len vs (<[pos := v]> buf) else Panic
  end.
(** The three column loops (dense_gonum_batching.go:43-71). Float columns of a
    dataframe that is not an index view are copied with copy, which stops at
    the end of the shorter slice. *)
Fixpoint dense_columns (d : dframe) (b : batching) (k : kind) (len : nat) (xs : list nat) (buf : list f64) : M (list f64) :=
  match xs with
  | [] => ret buf
  | x :: xs =>
      let pos := num_rows d * x in
      if decide (len < pos) then panic else
      let* m := get_mp (r_maps (d_raw d)) in
      let s := default nil_slice (m !! (k, col_name b x)) in
      let* buf := (if decide (k = KFloat /\ d_viewed d = false) then
                     let* vs := get_vals s in
                     lift (write_data pos len (f64_of_val <$> take (len - pos) vs) buf)
                   else
                     let* vs := gather s (inds d) in
                     lift (write_data pos len (f64_of_val <$> vs) buf)) in
      dense_columns d b k len xs buf
  end.
(** DenseMatrix (dense_gonum_batching.go:32-75). The result is the matrix as a
    list of rows; mat.NewDense panics on an empty matrix (gonum 0.8.2), and
    data[:n] beyond the capacity panics too. *)
Definition dense_matrix (db : dense) (d : dframe) : M (list (list f64) * dense) :=
  let* b := (match db_bat db with Some b => ret b | None => batch_init d (db_cols db) end) in
  let dim := length (b_columns b) in
  let n := num_rows d in
  let missing := Z.to_nat (Z.of_nat dim * (Z.of_nat n - Z.of_nat (db_len db))) in
  let buf := if decide (missing = 0) then db_buf db else grow_data (db_buf db) (db_len db) missing in
  let len := db_len db + missing in
  let* buf := dense_columns d b KFloat len (b_f b) buf in
  let* buf := dense_columns d b KInt len (b_i b) buf in
  let* buf := dense_columns d b KBool len (b_b b) buf in
  if decide (n = 0 \/ dim = 0 \/ length buf < n * dim) then panic else
  ret ((fun i => (fun j => default f64_zero (buf !! (n * j + i))) <$> seq 0 dim) <$> seq 0 n,
       Dense (db_cols db) (Some b) buf len).
End batch.
