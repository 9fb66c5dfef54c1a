(** Printing dataframes: dataframe/print.go:16-160 and 201-237, except
    PrintSummary. A function that prints returns what it writes to stdout. The
    headers it creates are fresh and only read, so the sets of names are used
    directly. *)
From stdpp Require Import pretty.
From Verif Require Export M_Utils.

(** What package fmt makes of a float with the given format, of the address of
    an object and of a string used as a format without further arguments. *)
Class PrintRT := { pr_float : string -> f64 -> string; pr_addr : obj -> string; pr_format : string -> string }.
Definition newline : string := String (Ascii.ascii_of_nat 10) "".
(** sort.Strings *)
Definition str_leb (a b : string) : Prop := String.leb a b = true.
Global Instance str_leb_dec : RelDecision str_leb.
Proof. intros a b. unfold str_leb. apply _. Defined.
Definition sort_strings (l : list string) : list string := merge_sort str_leb l.
(** fmt's %<w>d *)
Definition pad_int (w : nat) (z : Z) : string :=
  let s := pretty z in String.concat "" (replicate (w - String.length s) " ") +:+ s.

Section print.
Context {prt : PrintRT}.
(** printObject (print.go:201-213); [enc]: df.textEncoding is not nil. *)
Definition print_object (enc isString : bool) (o : obj) : res string :=
  match o with
  | ONil => Ok " <missing>"
  | _ => if isString then
           if enc then Ok " <NOT-UTF8>"
           else match o with OStr s => Ok (" '" +:+ s +:+ "'") | _ => Panic end
         else Ok (" " +:+ pr_addr o)
  end.
(** printBool (print.go:215-221) and the other cases. *)
Definition print_val (floatFormat : string) (enc isString : bool) (v : val) : res string :=
  match v with
  | VFloat x => Ok (pr_float floatFormat x)
  | VInt z => Ok (" " +:+ pretty z)
  | VBool b => Ok (if b then " 1" else " 0")
  | VObj o => print_object enc isString o
  end.
(** for _, j := range indices { print(vals[j]) } *)
Fixpoint print_cells (p : val -> res string) (vs : list val) (js : list nat) : res string :=
  match js with
  | [] => Ok ""
  | j :: js =>
      match vs !! j with
      | Some v => let? a := p v in let? b := print_cells p vs js in Ok (a +:+ b)
      | None => Panic
      end
  end.
(** The text of several steps. *)
Fixpoint print_all {A} (p : A -> res string) (xs : list A) : res string :=
  match xs with
  | [] => Ok ""
  | x :: xs => let? a := p x in let? b := print_all p xs in Ok (a +:+ b)
  end.
Definition num_printed (n : Z) (d : dframe) : nat :=
  if decide (n < 0 \/ Z.of_nat (num_rows d) < n)%Z then num_rows d else Z.to_nat n.
Definition float_format (f : string) : string := if decide (f = "") then " %.3f" else " " +:+ f.
(** PrintHead (print.go:66-126). *)
Definition print_kind (h : heap) (d : dframe) (n : nat) (f : string) (k : kind) : res string :=
  let m := mp h (r_maps (d_raw d)) in
  let enc := bool_decide (is_Some (r_enc (d_raw d))) in
  print_all (fun c =>
    match m !! (k, c) with
    | Some s =>
        let? b := print_cells (print_val f enc (bool_decide (c ∈ ostr h (r_strs (d_raw d))))) (sl_vals h s) (take n (inds d)) in
        Ok (c +:+ ":" +:+ b +:+ newline)
    | None => Panic
    end) (sort_strings (elements (names_of k m))).
Definition print_head (n : Z) (floatFormat : string) (d : dframe) : M string := fun h =>
  let n := num_printed n d in
  let f := float_format floatFormat in
  match (let? a := print_kind h d n f KFloat in
         let? b := print_kind h d n f KInt in
         let? c := print_kind h d n f KBool in
         let? e := print_kind h d n f KObj in
         Ok (a +:+ b +:+ c +:+ e)) with
  | Ok s => Ok (s, h)
  | Panic => Panic
  end.
(** intFormat (print.go:223-237): the width. *)
Definition int_width (maxInt : Z) : nat :=
  if decide (maxInt <= 9)%Z then 0 else if decide (maxInt <= 99)%Z then 2
  else if decide (maxInt <= 999)%Z then 3 else if decide (maxInt <= 9999)%Z then 4 else 0.
(** The body of the loop over the columns (print.go:149-170) *)
Definition print_field (h : heap) (d : dframe) (f : string) (short : gmap string string) (j : nat) (c : string) : res string :=
  let m := mp h (r_maps (d_raw d)) in
  let enc := bool_decide (is_Some (r_enc (d_raw d))) in
  let val (s : slice) : res string := print_cells (print_val f enc (bool_decide (c ∈ ostr h (r_strs (d_raw d))))) (sl_vals h s) [j] in
  let? v := match m !! (KFloat, c) with
    | Some s => val s
    | None => match m !! (KObj, c) with
      | Some s => val s
      | None => match m !! (KInt, c) with
        | Some s => val s
        | None => match m !! (KBool, c) with
          | Some s => val s
          | None => Ok " @ERROR@"
          end end end end in
  Ok (" " +:+ pr_format (default c (short !! c)) +:+ ":" +:+ v).
(** PrintRecords (print.go:132-174); [i]: row number. *)
Fixpoint print_rows (h : heap) (d : dframe) (f : string) (short : gmap string string) (order : list string) (w i : nat) (js : list nat) : res string :=
  match js with
  | [] => Ok ""
  | j :: js =>
      let? a := print_all (print_field h d f short j) order in
      let? b := print_rows h d f short order w (S i) js in
      Ok ("[" +:+ pad_int w (Z.of_nat i) +:+ ":" +:+ pretty (Z.of_nat j) +:+ "]" +:+ a +:+ newline +:+ b)
  end.
Definition print_records (n : Z) (floatFormat : string) (short : gmap string string) (d : dframe) : M string := fun h =>
  let n := num_printed n d in
  let m := mp h (r_maps (d_raw d)) in
  match print_rows h d (float_format floatFormat) short (sort_strings (elements (names m)))
          (int_width (Z.of_nat n - 1)) 0 (take n (inds d)) with
  | Ok s => Ok (s, h)
  | Panic => Panic
  end.
End print.
