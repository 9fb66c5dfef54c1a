(** What C88 means by well-formed names and numbers that can be stored. *)
From Verif Require Import M_Json.

(** RFC 3629, section 4. *)
Definition tail_byte (c : ascii) : Prop := 128 <= code c <= 191.
Inductive utf8 : string -> Prop :=
  | utf8_nil : utf8 ""
  | utf8_1 a s : code a <= 127 -> utf8 s -> utf8 (String a s)
  | utf8_2 a b s : 194 <= code a <= 223 -> tail_byte b -> utf8 s -> utf8 (String a (String b s))
  | utf8_3 a b c s :
      (code a = 224 /\ 160 <= code b <= 191) \/ (225 <= code a <= 236 /\ tail_byte b) \/
      (code a = 237 /\ 128 <= code b <= 159) \/ (238 <= code a <= 239 /\ tail_byte b) ->
      tail_byte c -> utf8 s -> utf8 (String a (String b (String c s)))
  | utf8_4 a b c d s :
      (code a = 240 /\ 144 <= code b <= 191) \/ (241 <= code a <= 243 /\ tail_byte b) \/
      (code a = 244 /\ 128 <= code b <= 143) ->
      tail_byte c -> tail_byte d -> utf8 s -> utf8 (String a (String b (String c (String d s)))).

(** Neither NaN nor infinite. *)
Definition finite (x : f64) : Prop := x <> S754_nan /\ forall b, x <> S754_infinity b.
(** A float64: the mantissa and the exponent are in range. *)
Definition is_f64 (x : f64) : Prop := valid_binary 53 1024 x = true.
Definition is_int64 (z : Z) : Prop := (- 2 ^ 63 <= z < 2 ^ 63)%Z.

(** strconv.ParseFloat reads what AppendFloat writes, and that is a JSON number. *)
Definition exact_numbers {jrt : JsonRT} : Prop :=
  forall x, is_f64 x -> finite x -> json_number (fmt_num x) = true /\ parse_num (fmt_num x) = Some x.

(** The names and numbers of the structures. *)
Definition map_nums (P : f64 -> Prop) (m : gmap string f64) : Prop := forall c x, m !! c = Some x -> P x.
Definition map_names {A} (m : gmap string A) : Prop := forall c, is_Some (m !! c) -> utf8 c.
Definition scaler_nums (P : f64 -> Prop) (s : scaler f64_arith) : Prop := map_nums P (sc_shift s) /\ map_nums P (sc_scale s).
Definition scaler_names (s : scaler f64_arith) : Prop := map_names (sc_shift s) /\ map_names (sc_scale s).
Record encoder_names (e : encoder) : Prop := {
  en_cats_ok : forall c, c ∈ en_cats e -> utf8 c;
  en_new_ok : forall c, c ∈ en_new e -> utf8 c;
  en_map_ok : map_names (en_map e);
  en_map_int : forall c m z s, en_map e !! c = Some m -> m !! z = Some s -> is_int64 z /\ utf8 s;
  en_fb_ok : map_names (en_fb e);
  en_fb_str : forall c a b, en_fb e !! c = Some (a, b) -> utf8 a /\ utf8 b }.
Record auto_names (p : auto) : Prop := {
  an_hash : forall l c, ap_hash p = Some l -> c ∈ l -> utf8 c;
  an_onehot : forall e, ap_onehot p = Some e -> encoder_names e;
  an_imputer : forall f, ap_imputer p = Some f -> map_names f;
  an_scaler : forall s, ap_scaler p = Some s -> scaler_names s }.
Definition auto_nums (P : f64 -> Prop) (p : auto) : Prop :=
  (forall f, ap_imputer p = Some f -> map_nums P f) /\ (forall s, ap_scaler p = Some s -> scaler_nums P s).
Definition linreg_nums (P : f64 -> Prop) (r : linreg) : Prop :=
  (forall s, lr_scaler r = Some s -> scaler_nums P s) /\ Forall P (lr_weights r).
Definition linreg_names (r : linreg) : Prop :=
  (forall s, lr_scaler r = Some s -> scaler_names s) /\ Forall utf8 (lr_features r).

(** JSON values with valid texts and numbers. *)
Inductive jvalid : json -> Prop :=
  | jv_null : jvalid JNull
  | jv_bool b : jvalid (JBool b)
  | jv_num s : json_number s = true -> jvalid (JNum s)
  | jv_str s : utf8 s -> jvalid (JStr s)
  | jv_arr l : Forall jvalid l -> jvalid (JArr l)
  | jv_obj l : Forall (fun p => utf8 p.1 /\ jvalid p.2) l -> jvalid (JObj l).
