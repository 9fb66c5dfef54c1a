(** CheckConsistency: dataframe/checks.go:43-89. [ord] is the order in which Go
    iterates over the maps; the messages to *testing.T are left out. *)
From Verif Require Export M_Frame.

(** for _, vals := range data.objects { if len(vals) != nRows { return false } } *)
Fixpoint lengths_are (n : nat) (ord : list (key * slice)) (k : kind) : bool :=
  match ord with
  | [] => true
  | p :: ord => if decide (p.1.1 = k /\ s_len p.2 <> n) then false else lengths_are n ord k
  end.
(** for _, v := range vals { if v is a string { return false } } *)
Fixpoint no_string (vs : list val) : bool :=
  match vs with
  | [] => true
  | VObj (OStr _) :: vs => false
  | _ :: vs => no_string vs
  end.
Definition check_consistency (ord : list (key * slice)) (r : raw) (h : heap) : bool :=
  let n := nar_ord ord in
  let strs := ostr h (r_strs r) in
  let m := mp h (r_maps r) in
  if negb (lengths_are n ord KObj) then false else
  if negb (lengths_are n ord KFloat) then false else
  if negb (lengths_are n ord KInt) then false else
  if negb (lengths_are n ord KBool) then false else
  if negb (forallb (fun c => bool_decide (is_Some (m !! (KObj, c)))) (elements strs)) then false else
  forallb (fun p : key * slice => if decide (p.1.1 = KObj) then
             if decide (p.1.2 ∈ strs) then true else no_string (sl_vals h p.2) else true) ord.
