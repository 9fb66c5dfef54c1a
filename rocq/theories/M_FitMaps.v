(** OneHotEncoder.Fit with the memory of the encoder: the maps Categories and
    Fallback and what they hold, which the workers share
    (preprocessing/one_hot.go:55-128). *)
From Verif Require Export M_OneHot.
From stdpp Require Import strings list.

(** The maps as made before the workers start (one_hot.go:115-122). Array [L] has
    one cell for the map Categories and one for the map Fallback; the array of
    the i-th column has a cell for Categories[col] and two for the slice
    Fallback[col]. The cell of a map stands for the whole map, each access to
    the map being an access to the cell; that of Categories[col] holds the
    number of entries. *)
Definition col_cells : list val := [VInt 0; VObj (OStr ""); VObj (OStr "")].
Definition new_maps (cols : list string) (h : heap) : heap :=
  Heap (h_arr h ++ [VObj ONil; VObj ONil] :: replicate (length cols) col_cells)
       (h_mask h) (h_map h) (h_str h) (h_shr h).
Definition col_arr (L : nat) (cols : list string) (c : string) : nat :=
  L + 1 + default 0 (fst <$> list_find (c =.) cols).

Section job.
Context {R : Type}.
(** categoryToNewCol[category] = ..., [n] times (one_hot.go:83-86). *)
Fixpoint put_cats (a : addr) (n : nat) (k : job R) : job R :=
  match n with
  | 0 => k
  | S n => JRd a (fun v => JWr a (VInt (int_of v + 1)) (put_cats a n k))
  end.
(** one_hot.go:88-98; [seen]: missingSeen *)
Definition put_missing (opt : oh_opt) (seen : bool) (own : nat) (fb0 : string) (k : job R) : job R :=
  match oh_missing opt with
  | PIfSeen => if seen then JWr (own, 1) (VObj (OStr fb0)) k
               else JRd (own, 0) (fun _ => JWr (own, 1) (VObj (OStr fb0)) k)
  | PSeparate => JWr (own, 1) (VObj (OStr fb0)) k
  | PFrequent => JRd (own, 0) (fun _ => JWr (own, 1) (VObj (OStr fb0)) k)
  | PShared | PError => k
  end.
(** one_hot.go:99-105 *)
Definition put_unknown (opt : oh_opt) (own : nat) (fb1 : string) (k : job R) : job R :=
  match oh_unknown opt with
  | PSeparate => JWr (own, 2) (VObj (OStr fb1)) k
  | PFrequent => JRd (own, 0) (fun _ => JWr (own, 2) (VObj (OStr fb1)) k)
  | PShared => JRd (own, 1) (fun v => JWr (own, 2) v k)
  | PIfSeen | PError => k
  end.
End job.

(** What a worker does for column [c]. *)
Definition fit_maps_job (opt : oh_opt) (ord : string -> bool -> gset Z -> list Z) (m : gmap key slice) (d : dframe)
  (L : nat) (cols : list string) (c : string) : job (gmap Z string * (string * string)) :=
  match m !! (KInt, c) with
  | Some s => read_job s (inds d) [] (fun vs =>
      let zs := int_of <$> vs in
      let r := fit_cats opt (ord c) c zs in
      let own := col_arr L cols c in
      JRd (L, 0) (fun _ => put_cats (own, 0) (size r.1)
        (JRd (L, 1) (fun _ => put_missing opt (bool_decide ((-1)%Z ∈ zs)) own r.2.1
           (put_unknown opt own r.2.2 (JRet r))))))
  | None => JPanic
  end.
