(** The debugging UIDs: dataUID of RawData (dataframe/raw_data.go:34-35), how the
    operations set it, and how it is printed. A dataUID is a uint64; the random
    numbers of math/rand are arguments. structureUID is a plain random number that
    nothing but the printing functions reads; it is not modelled. *)
From Verif Require Export M_Frame.
From stdpp Require Import strings.

(** strconv.FormatInt(i, 36) for i >= 0: the last digit is found first. *)
Definition digits36 : string := "0123456789abcdefghijklmnopqrstuvwxyz".
Definition digit36 (d : N) : string := substring (N.to_nat d) 1 digits36.
Fixpoint format36_loop (fuel : nat) (n : N) (acc : string) : string :=
  match fuel with
  | 0 => acc
  | S fuel =>
      let acc := digit36 (n mod 36) +:+ acc in
      if (n / 36 =? 0)%N then acc else format36_loop fuel (n / 36) acc
  end.
Definition format36 (n : N) : string := format36_loop (S (N.size_nat n)) n "".

(** printableDataUID (raw_data.go:60-72); v loses one bit in every turn. *)
Fixpoint uid_loop (fuel : nat) (i v : N) : string :=
  match fuel with
  | 0 => ""
  | S fuel =>
      if (v =? 0)%N then ""
      else (if (v mod 2 =? 1)%N then "|" +:+ format36 i else "") +:+ uid_loop fuel (i + 1) (v / 2)
  end.
Definition printable_uid (v : N) : string := uid_loop (S (N.size_nat v)) 0 v +:+ "|".

(** generateDataUID (raw_data.go:78-81); [r] is rand.Uint32(). *)
Definition gen_uid (r : N) : N := N.shiftl 1 (r mod 64).

Section uid.
Context {rt : GoRT}.

(** Unshare (raw_data.go:178-192). *)
Definition u_unshare (ru : raw * N) (cols : list string) (rnd : N) : M (raw * N) :=
  let '(r, u) := ru in
  let* sh := get_oshr (r_shared r) in
  if negb (r_sharedMaps r) && bool_decide (sh = ∅) then ret (r, u) else
  let* m := get_mp (r_maps r) in
  let u' := if decide (cols = [] \/ length cols = num_columns m)
            then gen_uid rnd else N.lor u (gen_uid rnd) in
  let* r' := unshare r cols in
  ret (r', u').
(** TransferRawDataFrom (raw_data.go:336-364). *)
Definition u_transfer (data from : raw * N) : M (raw * N) :=
  let* m := get_mp (r_maps data.1) in
  let u := if decide (num_columns m = 0) then from.2 else N.lor data.2 from.2 in
  let* r := transfer_raw data.1 from.1 in
  ret (r, u).

(** View (view.go:409-414), ColumnView (view.go:90-128) and DetachedView
    (view.go:394-400). *)
Definition u_view (du : dframe * N) : dframe * N := (view du.1, du.2).
Definition u_column_view (du : dframe * N) (cols : list string) : M (dframe * N) :=
  let* v := column_view du.1 cols in ret (v, du.2).
Definition u_detached_view (du : dframe * N) (cols : list string) (rnd : N) : M (dframe * N) :=
  let* ru := u_unshare (d_raw (view du.1), du.2) cols rnd in
  ret (set_raw du.1 ru.1, ru.2).
(** HashStringsView (view.go:361-384). *)
Definition u_hash_strings_view (du : dframe * N) (cols : list string) (rnd : N) : M (dframe * N) :=
  if decide (cols = []) then ret (u_view du) else
  let* m := get_mp (r_maps (d_raw du.1)) in
  let u := if decide (length cols = num_columns m) then gen_uid rnd else N.lor du.2 (gen_uid rnd) in
  let* v := hash_strings_view du.1 cols in ret (v, u).
(** ShallowCopy (dataframe.go:108-120) and Copy (dataframe.go:126-187): both start
    from EmptyDataFrame, which draws a UID (dataframe.go:30). *)
Definition u_shallow_copy (du : dframe * N) (rnd : N) : M (dframe * N) :=
  let '(d, u) := du in
  let* e := empty_df (-1) (r_cpu (d_raw d)) in
  let* ru := u_transfer (d_raw e, gen_uid rnd) (d_raw d, u) in
  ret (DF ru.1 (d_ind d) (d_mask d) (d_viewed d) (d_mts d), ru.2).
Definition u_copy (du : dframe * N) (rnd : N) : M (dframe * N) :=
  let* v := copy_df du.1 in ret (v, gen_uid rnd).
End uid.
