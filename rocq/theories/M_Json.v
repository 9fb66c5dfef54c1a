(** encoding/json of Go 1.15 as examples/linreg.go:88-101, one_hot_test.go:26-28
    and preprocessing/README.md:47-55 use it: Marshal of the fitted structures
    and Unmarshal into fresh ones. Text is a sequence of bytes. *)
From Verif Require Export M_LinReg M_Auto M_CsvText M_Print.

(** ** UTF-8 *)
(** utf8.DecodeRuneInString: the length of the first character, 0 if the first
    byte does not start one. *)
Definition brange (a c b : nat) : bool := (a <=? c) && (c <=? b).
Definition cont (c : ascii) : bool := brange 128 (code c) 191.
Definition rune_len (s : string) : nat :=
  match s with
  | "" => 0
  | String a r =>
      if code a <? 128 then 1 else
      match r with
      | "" => 0
      | String b r =>
          if brange 194 (code a) 223 then (if cont b then 2 else 0) else
          match r with
          | "" => 0
          | String c r =>
              let lo := if code a =? 224 then 160 else 128 in
              let hi := if code a =? 237 then 159 else 191 in
              if brange 224 (code a) 239 then (if brange lo (code b) hi && cont c then 3 else 0) else
              match r with
              | "" => 0
              | String d _ =>
                  let lo := if code a =? 240 then 144 else 128 in
                  let hi := if code a =? 244 then 143 else 191 in
                  if brange 240 (code a) 244 then (if brange lo (code b) hi && cont c && cont d then 4 else 0) else 0
              end
          end
      end
  end.
Fixpoint sdrop (n : nat) (s : string) : string :=
  match n, s with S n, String _ s => sdrop n s | _, _ => s end.
Fixpoint stake (n : nat) (s : string) : string :=
  match n, s with S n, String c s => String c (stake n s) | _, _ => "" end.
Definition chr (n : N) : ascii := ascii_of_N n.
(** utf8.EncodeRune *)
Definition utf8_enc (n : N) : string :=
  (if n <? 128 then String (chr n) ""
   else if n <? 2048 then String (chr (192 + n / 64)) (String (chr (128 + n mod 64)) "")
   else if n <? 65536 then
     String (chr (224 + n / 4096)) (String (chr (128 + (n / 64) mod 64)) (String (chr (128 + n mod 64)) ""))
   else String (chr (240 + n / 262144)) (String (chr (128 + (n / 4096) mod 64))
          (String (chr (128 + (n / 64) mod 64)) (String (chr (128 + n mod 64)) ""))))%N.
Definition replacement : string := utf8_enc 65533.
(** What a text becomes when every byte that is not part of a character is
    replaced by U+FFFD. *)
Fixpoint sanitize_ (n : nat) (s : string) : string :=
  match n, s with
  | S n, String c r =>
      match rune_len s with
      | 0 => replacement +:+ sanitize_ n r
      | k => stake k s +:+ sanitize_ n (sdrop k s)
      end
  | _, _ => ""
  end.
Definition sanitize (s : string) : string := sanitize_ (String.length s) s.

(** ** Strings *)
Definition hex_digit (n : nat) : ascii := default "0"%char (String.get n "0123456789abcdef").
Definition bslash : ascii := "\"%char.
(** encodeState.string with escapeHTML (encode.go of Go 1.15). *)
Definition safe_byte (c : ascii) : bool :=
  (32 <=? code c) && negb (bool_decide (c = cQuote \/ c = bslash \/ c = "<"%char \/ c = ">"%char \/ c = "&"%char)).
Definition quote_byte (c : ascii) : string :=
  if safe_byte c then String c ""
  else if decide (c = cQuote \/ c = bslash) then String bslash (String c "")
  else if decide (c = cLF) then "\n"
  else if decide (c = cCR) then "\r"
  else if decide (c = "009"%char) then "\t"
  else "\u00" +:+ String (hex_digit (code c / 16)) (String (hex_digit (code c mod 16)) "").
Definition quote_rune (r : string) : string :=
  if decide (r = utf8_enc 8232) then "\u2028" else if decide (r = utf8_enc 8233) then "\u2029" else r.
Fixpoint quote_ (n : nat) (s : string) : string :=
  match n, s with
  | S n, String c r =>
      match rune_len s with
      | 0 => "\ufffd" +:+ quote_ n r
      | 1 => quote_byte c +:+ quote_ n r
      | k => quote_rune (stake k s) +:+ quote_ n (sdrop k s)
      end
  | _, _ => ""
  end.
Definition jquote (s : string) : string := String cQuote (quote_ (String.length s) s +:+ String cQuote "").

(** unquoteBytes (decode.go) and the part of the scanner that finds the end. *)
Definition hex_val (c : ascii) : option N :=
  let n := N_of_ascii c in
  if (48 <=? n)%N && (n <=? 57)%N then Some (n - 48)%N
  else if (97 <=? n)%N && (n <=? 102)%N then Some (n - 87)%N
  else if (65 <=? n)%N && (n <=? 70)%N then Some (n - 55)%N else None.
Definition hex4 (s : string) : option (N * string) :=
  match s with
  | String a (String b (String c (String d r))) =>
      match hex_val a, hex_val b, hex_val c, hex_val d with
      | Some a, Some b, Some c, Some d => Some (((a * 16 + b) * 16 + c) * 16 + d, r)%N
      | _, _, _, _ => None
      end
  | _ => None
  end.
(** getu4 after the first half of a surrogate pair. *)
Definition low_half (s : string) : option (N * string) :=
  match s with
  | String a (String b r) =>
      if decide (a = bslash /\ b = "u"%char) then
        match hex4 r with
        | Some (n, r) => if (56320 <=? n)%N && (n <? 57344)%N then Some (n, r) else None
        | None => None
        end
      else None
  | _ => None
  end.
(** The escape sequence after a backslash. *)
Definition unescape (s : string) : option (string * string) :=
  match s with
  | "" => None
  | String c r =>
      if decide (c = cQuote \/ c = bslash \/ c = "/"%char) then Some (String c "", r)
      else if decide (c = "b"%char) then Some (String "008" "", r)
      else if decide (c = "f"%char) then Some (String "012" "", r)
      else if decide (c = "n"%char) then Some (String cLF "", r)
      else if decide (c = "r"%char) then Some (String cCR "", r)
      else if decide (c = "t"%char) then Some (String "009" "", r)
      else if decide (c = "u"%char) then
        match hex4 r with
        | Some (n, r) =>
            if (55296 <=? n)%N && (n <? 57344)%N then
              match (if (n <? 56320)%N then low_half r else None) with
              | Some (n', r) => Some (utf8_enc ((n - 55296) * 1024 + (n' - 56320) + 65536), r)
              | None => Some (replacement, r)
              end
            else Some (utf8_enc n, r)
        | None => None
        end
      else None
  end.
(** The rest of a string after its opening quote. *)
Fixpoint pstr (n : nat) (s : string) : option (string * string) :=
  match n, s with
  | S n, String c r =>
      if decide (c = cQuote) then Some ("", r)
      else if decide (c = bslash) then
        match unescape r with
        | Some (x, r) => match pstr n r with Some (y, r) => Some (x +:+ y, r) | None => None end
        | None => None
        end
      else if code c <? 32 then None
      else match rune_len s with
           | 0 => match pstr n r with Some (y, r) => Some (replacement +:+ y, r) | None => None end
           | k => match pstr n (sdrop k s) with Some (y, r) => Some (stake k s +:+ y, r) | None => None end
           end
  | _, _ => None
  end.

(** ** Values *)
Inductive json :=
  | JNull | JBool (b : bool) | JNum (s : string) | JStr (s : string)
  | JArr (l : list json) | JObj (l : list (string * json)).
(** Marshal *)
Fixpoint jtext (v : json) : string :=
  match v with
  | JNull => "null"
  | JBool b => if b then "true" else "false"
  | JNum s => s
  | JStr s => jquote s
  | JArr l => "[" +:+ String.concat "," (map jtext l) +:+ "]"
  | JObj l => "{" +:+ String.concat "," (map (fun p => jquote p.1 +:+ ":" +:+ jtext p.2) l) +:+ "}"
  end.

(** Numbers: the characters that can occur, and the automaton of scanner.go. *)
Definition num_char (c : ascii) : bool :=
  brange 48 (code c) 57 || bool_decide (c = "+"%char \/ c = "-"%char \/ c = "."%char \/ c = "e"%char \/ c = "E"%char).
Inductive num_state := NStart | NNeg | NZero | NInt | NDot | NFrac | NE | NSign | NExp.
Definition num_step (q : num_state) (c : ascii) : option num_state :=
  let d := brange 48 (code c) 57 in
  match q with
  | NStart => if decide (c = "-"%char) then Some NNeg else if decide (c = "0"%char) then Some NZero else if d then Some NInt else None
  | NNeg => if decide (c = "0"%char) then Some NZero else if d then Some NInt else None
  | NZero => if decide (c = "."%char) then Some NDot else if decide (c = "e"%char \/ c = "E"%char) then Some NE else None
  | NInt => if d then Some NInt else if decide (c = "."%char) then Some NDot else if decide (c = "e"%char \/ c = "E"%char) then Some NE else None
  | NDot => if d then Some NFrac else None
  | NFrac => if d then Some NFrac else if decide (c = "e"%char \/ c = "E"%char) then Some NE else None
  | NE => if d then Some NExp else if decide (c = "+"%char \/ c = "-"%char) then Some NSign else None
  | NSign => if d then Some NExp else None
  | NExp => if d then Some NExp else None
  end.
Fixpoint num_run (q : num_state) (s : string) : option num_state :=
  match s with "" => Some q | String c s => match num_step q c with Some q => num_run q s | None => None end end.
Definition json_number (s : string) : bool :=
  match num_run NStart s with Some (NZero | NInt | NFrac | NExp) => true | _ => false end.
Fixpoint num_span (s : string) : string * string :=
  match s with
  | String c r => if num_char c then let '(a, b) := num_span r in (String c a, b) else ("", s)
  | "" => ("", "")
  end.

(** Unmarshal: the text as a value. *)
Definition jblank (c : ascii) : bool := bool_decide (c = " "%char \/ c = "009"%char \/ c = cCR \/ c = cLF).
Fixpoint jskip (s : string) : string :=
  match s with String c r => if jblank c then jskip r else s | "" => "" end.
Fixpoint jstrip (p s : string) : option string :=
  match p, s with
  | "", _ => Some s
  | String a p, String b s => if decide (a = b) then jstrip p s else None
  | _, _ => None
  end.
Definition jlit (p : string) (v : json) (s : string) : option (json * string) :=
  match jstrip p s with Some r => Some (v, r) | None => None end.
Definition jkey (s : string) : option (string * string) :=
  match jskip s with
  | String c r =>
      if decide (c = cQuote) then
        match pstr (String.length r) r with
        | Some (k, r) => match jskip r with String ":" r => Some (k, r) | _ => None end
        | None => None
        end
      else None
  | "" => None
  end.
Fixpoint pval (n : nat) (s : string) {struct n} : option (json * string) :=
  match n with
  | O => None
  | S n =>
      match jskip s with
      | "" => None
      | String c r =>
          if decide (c = cQuote) then
            match pstr (String.length r) r with Some (x, r) => Some (JStr x, r) | None => None end
          else if decide (c = "{"%char) then
            match jskip r with
            | String "}" r => Some (JObj [], r)
            | _ => match pfields n r with Some (l, r) => Some (JObj l, r) | None => None end
            end
          else if decide (c = "["%char) then
            match jskip r with
            | String "]" r => Some (JArr [], r)
            | _ => match pelems n r with Some (l, r) => Some (JArr l, r) | None => None end
            end
          else if decide (c = "n"%char) then jlit "ull" JNull r
          else if decide (c = "t"%char) then jlit "rue" (JBool true) r
          else if decide (c = "f"%char) then jlit "alse" (JBool false) r
          else
            let '(a, b) := num_span (String c r) in
            if json_number a then Some (JNum a, b) else None
      end
  end
with pelems (n : nat) (s : string) {struct n} : option (list json * string) :=
  match n with
  | O => None
  | S n =>
      match pval n s with
      | Some (v, r) =>
          match jskip r with
          | String "]" r => Some ([v], r)
          | String "," r => match pelems n r with Some (l, r) => Some (v :: l, r) | None => None end
          | _ => None
          end
      | None => None
      end
  end
with pfields (n : nat) (s : string) {struct n} : option (list (string * json) * string) :=
  match n with
  | O => None
  | S n =>
      match jkey s with
      | Some (k, r) =>
          match pval n r with
          | Some (v, r) =>
              match jskip r with
              | String "}" r => Some ([(k, v)], r)
              | String "," r => match pfields n r with Some (l, r) => Some ((k, v) :: l, r) | None => None end
              | _ => None
              end
          | None => None
          end
      | None => None
      end
  end.
Definition jparse (s : string) : option json :=
  match pval (S (2 * String.length s)) s with
  | Some (v, r) => if decide (jskip r = "") then Some v else None
  | None => None
  end.

(** ** The structures *)
(** strconv.AppendFloat as floatEncoder calls it and strconv.ParseFloat. *)
Class JsonRT := { fmt_num : f64 -> string; parse_num : string -> option f64 }.

Section structs.
Context {jrt : JsonRT}.
Definition f64_isfinite (x : f64) : bool := match x with S754_zero _ | S754_finite _ _ _ => true | _ => false end.
(** floatEncoder: an error for NaN and the infinities. *)
Definition num_json (x : f64) : option json := if f64_isfinite x then Some (JNum (fmt_num x)) else None.
(** mapEncoder: sorted by key. A nil map is written as null, an empty one as {};
    here all empty maps and slices are written as null: both read as empty. *)
Definition map_json {A} (f : A -> option json) (m : gmap string A) : option json :=
  if decide (m = ∅) then Some JNull else
  JObj <$> mapM (fun k => v ← m !! k; (k,.) <$> f v) (sort_strings (elements (dom m))).
Definition int_map_json {A} (f : A -> option json) (m : gmap Z A) : option json :=
  map_json f (list_to_map ((fun p => (pretty p.1, p.2)) <$> map_to_list m)).
Definition list_json {A} (f : A -> option json) (l : list A) : option json :=
  if decide (l = []) then Some JNull else JArr <$> mapM f l.
Definition strs_json (l : list string) : option json := list_json (fun s => Some (JStr s)) l.
Definition ptr_json {A} (f : A -> option json) (o : option A) : option json :=
  match o with Some x => f x | None => Some JNull end.
(** Exported fields in their order. *)
Fixpoint struct_json (l : list (string * option json)) : option (list (string * json)) :=
  match l with
  | [] => Some []
  | (k, o) :: l => v ← o; l ← struct_json l; Some ((k, v) :: l)
  end.
Definition obj_json (l : list (string * option json)) : option json := JObj <$> struct_json l.

(** Decoding into a fresh variable; None for an error. null is the zero value.
    Fields are found by their exact names. *)
Definition jnum_of (v : json) : option f64 :=
  match v with JNum s => parse_num s | JNull => Some f64_zero | _ => None end.
Definition jstr_of (v : json) : option string :=
  match v with JStr s => Some s | JNull => Some "" | _ => None end.
Definition jbool_of (v : json) : option bool :=
  match v with JBool b => Some b | JNull => Some false | _ => None end.
Definition jint_of (v : json) : option Z :=
  match v with JNum s => parse_int s | JNull => Some 0%Z | _ => None end.
Definition list_of {A} (f : json -> option A) (v : json) : option (list A) :=
  match v with JArr l => mapM f l | JNull => Some [] | _ => None end.
Definition jput {K A} `{Countable K} (f : json -> option A) (g : string -> option K) (m : option (gmap K A)) (p : string * json) : option (gmap K A) :=
  m ← m; k ← g p.1; v ← f p.2; Some (<[k := v]> m).
Definition map_of {K A} `{Countable K} (f : json -> option A) (g : string -> option K) (v : json) : option (gmap K A) :=
  match v with JObj l => foldl (jput f g) (Some ∅) l | JNull => Some ∅ | _ => None end.
Definition ptr_of {A} (f : json -> option A) (v : json) : option (option A) :=
  match v with JNull => Some None | _ => Some <$> f v end.
Definition fields_of (v : json) : option (list (string * json)) :=
  match v with JObj l => Some l | JNull => Some [] | _ => None end.
Fixpoint jfield (k : string) (l : list (string * json)) : json :=
  match l with [] => JNull | (k', v) :: l => if decide (k' = k) then v else jfield k l end.

(** Scaler (scaler.go:21-25) *)
Definition scaler_json (s : scaler f64_arith) : option json :=
  obj_json [("Shift", map_json num_json (sc_shift s)); ("Scale", map_json num_json (sc_scale s))].
Definition scaler_of (v : json) : option (scaler f64_arith) :=
  l ← fields_of v; a ← map_of jnum_of Some (jfield "Shift" l); b ← map_of jnum_of Some (jfield "Scale" l);
  Some (Scaler (A:=f64_arith) a b).
(** FloatImputer (float_imputer.go:22-25) *)
Definition imputer_json (f : gmap string f64) : option json := obj_json [("Fallback", map_json num_json f)].
Definition imputer_of (v : json) : option (gmap string f64) :=
  l ← fields_of v; map_of jnum_of Some (jfield "Fallback" l).
(** HashEncoder (hash_encoder.go:19-21) *)
Definition hash_json (cols : list string) : option json := obj_json [("CategoricalColumns", strs_json cols)].
Definition hash_of (v : json) : option (list string) :=
  l ← fields_of v; list_of jstr_of (jfield "CategoricalColumns" l).
(** OneHotEncoder and OneHotOptions (one_hot.go:9-24); a CategoryPolicy is its
    number (lines 28-45). Numbers that are no policy are not modelled. *)
Definition policy_num (p : cat_policy) : string :=
  match p with PIfSeen => "0" | PShared => "1" | PSeparate => "2" | PFrequent => "3" | PError => "4" end.
Definition policy_of (v : json) : option cat_policy :=
  z ← jint_of v;
  (if decide (z = 0) then Some PIfSeen else if decide (z = 1) then Some PShared else if decide (z = 2) then Some PSeparate
   else if decide (z = 3) then Some PFrequent else if decide (z = 4) then Some PError else None)%Z.
Definition oh_opt_json (o : oh_opt) : option json :=
  obj_json [("MissingPolicy", Some (JNum (policy_num (oh_missing o)))); ("UnknownPolicy", Some (JNum (policy_num (oh_unknown o))));
            ("KeepUsedColumns", Some (JBool (oh_keep o)))].
Definition oh_opt_of (v : json) : option oh_opt :=
  l ← fields_of v; m ← policy_of (jfield "MissingPolicy" l); u ← policy_of (jfield "UnknownPolicy" l);
  k ← jbool_of (jfield "KeepUsedColumns" l); Some (OhOpt m u k).
Definition pair_of (v : json) : option (string * string) :=
  l ← list_of jstr_of v; match l with [a; b] => Some (a, b) | _ => None end.
Definition encoder_json (e : encoder) : option json :=
  obj_json [("CategoricalColumns", strs_json (en_cats e)); ("NewColumns", strs_json (en_new e));
            ("Categories", map_json (int_map_json (fun s => Some (JStr s))) (en_map e));
            ("Fallback", map_json (fun p => strs_json [p.1; p.2]) (en_fb e));
            ("Options", oh_opt_json (en_opt e))].
Definition encoder_of (v : json) : option encoder :=
  l ← fields_of v;
  a ← list_of jstr_of (jfield "CategoricalColumns" l); b ← list_of jstr_of (jfield "NewColumns" l);
  c ← map_of (map_of jstr_of parse_int) Some (jfield "Categories" l);
  d ← map_of pair_of Some (jfield "Fallback" l); o ← oh_opt_of (jfield "Options" l);
  Some (Encoder a b c d o).
(** AutoPreprocessor (auto_preprocessor.go:24-30); options is not exported. *)
Definition auto_json (p : auto) : option json :=
  obj_json [("StringToInt", ptr_json hash_json (ap_hash p)); ("IntToBool", ptr_json encoder_json (ap_onehot p));
            ("Imputer", ptr_json imputer_json (ap_imputer p)); ("Scaler", ptr_json scaler_json (ap_scaler p))].
Definition auto_of (v : json) : option auto :=
  l ← fields_of v;
  a ← ptr_of hash_of (jfield "StringToInt" l); b ← ptr_of encoder_of (jfield "IntToBool" l);
  c ← ptr_of imputer_of (jfield "Imputer" l); d ← ptr_of scaler_of (jfield "Scaler" l);
  Some (Auto a b c d (AutoOpt false false [])).
(** LinearRegressor (linear_regression.go:39-44) *)
Definition linreg_json (r : linreg) : option json :=
  obj_json [("TargetScaler", ptr_json scaler_json (lr_scaler r)); ("Weights", list_json num_json (lr_weights r));
            ("Features", strs_json (lr_features r))].
Definition linreg_of (v : json) : option linreg :=
  l ← fields_of v; a ← ptr_of scaler_of (jfield "TargetScaler" l); b ← list_of jnum_of (jfield "Weights" l);
  c ← list_of jstr_of (jfield "Features" l); Some (LinReg a b c).

(** json.Marshal, then json.Unmarshal into a fresh structure. *)
Definition marshal {A} (f : A -> option json) (x : A) : option string := jtext <$> f x.
Definition unmarshal {A} (g : json -> option A) (s : string) : option A := jparse s ≫= g.
End structs.

(** Scaler and FloatImputer with their options fields, which are not exported. *)
Definition scaler_marshal {jrt : JsonRT} (s : scaler f64_arith * scaler_opt) : option string := marshal scaler_json s.1.
Definition scaler_unmarshal {jrt : JsonRT} (t : string) : option (scaler f64_arith * scaler_opt) :=
  (., ScalerOpt false false false) <$> unmarshal scaler_of t.
Definition imputer_marshal {jrt : JsonRT} (s : gmap string f64 * impute_policy) : option string := marshal imputer_json s.1.
Definition imputer_unmarshal {jrt : JsonRT} (t : string) : option (gmap string f64 * impute_policy) :=
  (., IMean) <$> unmarshal imputer_of t.
