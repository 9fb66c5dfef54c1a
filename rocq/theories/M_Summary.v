(** PrintSummary: dataframe/print.go:16-56. *)
From stdpp Require Import pretty.
From Verif Require Export M_Print.

(** fmt's %s for a list of strings *)
Definition go_list (l : list string) : string := "[" +:+ String.concat " " l +:+ "]".
(** A line with the names of a header, sorted (print.go:17-46). *)
Definition names_line (label : string) (X : gset string) : string :=
  label +:+ go_list (sort_strings (elements X)) +:+ newline.
Definition line_if (b : bool) (s : string) : string := if b then s else "".
Definition set_nonempty (X : gset string) : bool := bool_decide (X <> ∅).
(** [uid]: the structureUID of the dataframe, which is not part of the model. *)
Definition print_summary (uid : Z) (d : dframe) : M string := fun h =>
  let m := mp h (r_maps (d_raw d)) in
  let objects := names_of KObj m in
  let strings := ostr h (r_strs (d_raw d)) in
  let shared := oshr h (r_shared (d_raw d)) in
  Ok (line_if (set_nonempty (names_of KFloat m)) (names_line "float   " (names_of KFloat m)) +:+
      line_if (set_nonempty (names_of KInt m)) (names_line "int     " (names_of KInt m)) +:+
      line_if (set_nonempty (names_of KBool m)) (names_line "bool    " (names_of KBool m)) +:+
      line_if (set_nonempty objects) (names_line "object  " (objects ∖ strings)) +:+
      line_if (set_nonempty strings) (names_line "string  " strings) +:+
      line_if (set_nonempty shared) (names_line "viewed  " shared) +:+
      line_if (r_sharedMaps (d_raw d)) ("shared  YES (structure ID: " +:+ pretty uid +:+ ")" +:+ newline) +:+
      "rows    " +:+ pretty (Z.of_nat (num_rows d)) +:+ newline +:+
      "max CPU " +:+ pretty (actual_max_cpu (d_raw d)) +:+ newline +:+
      line_if (d_viewed d) ("row-wise view: " +:+ pretty (Z.of_nat (num_rows d)) +:+ " / " +:+ pretty (Z.of_nat (s_len (d_mask d))) +:+ " rows" +:+ newline), h).
