(** Encode and inplaceEncoding (dataframe/inplace.go:7-78), NameList order being
    a parameter. *)
From Verif Require Export M_Frame.

(** A golang.org/x/text encoding: the decoder to UTF-8 and the encoder from UTF-8.
    Decoder.String and Encoder.String reset their state first, so each is a
    function of the string; both may fail. *)
Record codec := Codec { c_dec : string -> option string; c_enc : string -> option string }.

(** One of the two steps of inplaceEncoding; a nil decoder or encoder is skipped
    (inplace.go:14-26). *)
Definition step (f : option (string -> option string)) (s : string) : option string :=
  match f with Some f => f s | None => Some s end.

(** inplaceEncoding (inplace.go:7-32). Returns the position of the failure. *)
Fixpoint inplace_encoding (dec enc : option (string -> option string)) (values : slice)
    (indices : list nat) (j : nat) : M (option nat) :=
  match indices with
  | [] => ret None
  | i :: indices =>
      let* v := sl_rd values i in
      match v with
      | VObj ONil => inplace_encoding dec enc values indices (S j)
      | VObj (OStr s) =>
          match step dec s with
          | None => ret (Some j)
          | Some u =>
              match step enc u with
              | None => ret (Some j)
              | Some w =>
                  let* _ := sl_wr values i (VObj (OStr w)) in
                  inplace_encoding dec enc values indices (S j)
              end
          end
      | _ => panic (* values[i].(string) *)
      end
  end.

Section encode.
(** The encodings the program knows, by identity: [==] on two Encodings
    compares identities. *)
Context (codecs : nat -> codec).
Definition decoder (e : option nat) := (fun e => c_dec (codecs e)) <$> e.
Definition encoder (e : option nat) := (fun e => c_enc (codecs e)) <$> e.

(** The loop of Encode (inplace.go:53-74): [true] when an error is returned;
    [previous] is colNames[:i]. *)
Fixpoint encode_loop (old new : option nat) (d : dframe) (previous cols : list string) : M bool :=
  match cols with
  | [] => ret false
  | c :: cols =>
      let* m := get_mp (r_maps (d_raw d)) in
      let values := default nil_slice (m !! (KObj, c)) in
      let* err := inplace_encoding (decoder old) (encoder new) values (inds d) 0 in
      match err with
      | None => encode_loop old new d (previous ++ [c]) cols
      | Some j =>
          let* _ := inplace_encoding (decoder new) (encoder old) values (take j (inds d)) 0 in
          let* _ := forM previous (fun p =>
            let* m := get_mp (r_maps (d_raw d)) in
            let* _ := inplace_encoding (decoder new) (encoder old) (default nil_slice (m !! (KObj, p))) (inds d) 0 in
            ret tt) in
          ret true
      end
  end.
Definition set_enc (d : dframe) (e : option nat) : dframe :=
  set_raw d (Raw (r_maps (d_raw d)) (r_shared (d_raw d)) (r_sharedMaps (d_raw d)) e
                 (r_cpu (d_raw d)) (r_strs (d_raw d))).
(** Encode (inplace.go:38-78); [order] is the order NameList takes the names
    from the map. The boolean tells whether an error is returned. *)
Definition encode_df (order : gset string -> list string) (d : dframe) (new : option nat) : M (bool * dframe) :=
  if decide (r_enc (d_raw d) = new) then ret (false, d)
  else
    let* names := get_ostr (r_strs (d_raw d)) in
    let* err := encode_loop (r_enc (d_raw d)) new d [] (order names) in
    ret (err, if err : bool then d else set_enc d new).
End encode.
