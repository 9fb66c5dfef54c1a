(** DataBuilder (/repo/dataframe/builder.go). The builder holds a pointer to a
    RawData; here the RawData record is threaded through the calls. *)
From Verif Require Export M_Frame.

Section build.
Context {rt : GoRT}.

(** AddFloats, AddBools, AddInts, AddObjects (builder.go:13-38): append to the
    column, which is the nil slice if it does not exist yet. *)
Definition b_add (k : kind) (r : raw) (c : string) (vs : list val) : M raw :=
  let* m := get_mp (r_maps r) in
  let* s := sl_append k (default nil_slice (m !! (k, c))) vs in
  put_col (r_maps r) (k, c) s ;;* ret r.

(** MarkAsString (builder.go:42-45). *)
Definition b_mark (r : raw) (c : string) : M raw :=
  let* st := str_add (r_strs r) {[c]} in
  ret (Raw (r_maps r) (r_shared r) (r_sharedMaps r) (r_enc r) (r_cpu r) st).

(** AddStrings (builder.go:51-60). *)
Definition b_add_strings (r : raw) (c : string) (vs : list string) : M raw :=
  let* r := b_add KObj r c ((fun s => VObj (OStr s)) <$> vs) in b_mark r c.

(** SetFloats, SetBools, SetInts, SetObjects (builder.go:66-94): the given
    slice is stored as it is. *)
Definition b_set (k : kind) (r : raw) (c : string) (s : slice) : M raw :=
  put_col (r_maps r) (k, c) s ;;* ret r.

(** TextEncoding (builder.go:103-106). *)
Definition b_enc (r : raw) (e : option nat) : raw :=
  Raw (r_maps r) (r_shared r) (r_sharedMaps r) e (r_cpu r) (r_strs r).

End build.
