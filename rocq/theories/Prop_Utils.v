(** Package utils, column headers, the CPU limit, short names: the property
    theorems C35, C62 to C65 and C68. *)
From Verif Require Import P_UtilsMain.
Local Existing Instance ex_rt.

(** C35 headers are sets (And: union, Except: difference, ...), NameList lists
    every name once, the headers of a dataframe name its columns, and no
    sequence of header operations changes a dataframe. *)
Theorem C35_header_algebra : forall (h : heap) (x : header) (others : list header) (cols : list string),
  valid_str h x -> Forall (valid_str h) others ->
  (exists y h', hd_columns cols h = Ok (y, h') /\ ostr h' y = list_to_set cols) /\
  (exists y h', hd_and x others h = Ok (y, h') /\ ostr h' y = ostr h x ∪ ⋃ (ostr h <$> others)) /\
  (exists h', hd_except_header x others h = Ok (x, h') /\ ostr h' x = ostr h x ∖ ⋃ (ostr h <$> others)) /\
  (exists h', hd_except x cols h = Ok (x, h') /\ ostr h' x = ostr h x ∖ list_to_set cols) /\
  (exists y h', hd_copy x h = Ok (y, h') /\ ostr h' y = ostr h x /\ ostr h' x = ostr h x /\ (y = x -> x = None)) /\
  hd_num x h = Ok (size (ostr h x), h).
Proof. exact C35_header_algebra_main. Qed.
Print Assumptions C35_header_algebra.
Theorem C35_name_list : forall (h : heap) (x : header) (order : gset string -> list string) (l : list string),
  (forall s, order s ≡ₚ elements s) -> hd_name_list order x h = Ok (l, h) ->
  NoDup l /\ length l = size (ostr h x) /\ forall c, c ∈ l <-> c ∈ ostr h x.
Proof. exact C35_name_list_main. Qed.
Print Assumptions C35_name_list.
Theorem C35_dataframe_headers : forall (h : heap) (d : dframe), wf h d ->
  (forall k, exists x h', kind_header k (d_raw d) h = Ok (x, h') /\ preserved h h' /\
     forall c, c ∈ ostr h' x <-> is_Some (t_cols (abs h d) !! (k, c))) /\
  (exists x h', string_header (d_raw d) h = Ok (x, h') /\ preserved h h' /\ ostr h' x = t_strs (abs h d)) /\
  (exists x h', all_header (d_raw d) h = Ok (x, h') /\ preserved h h' /\
     forall c, c ∈ ostr h' x <-> exists k, is_Some (t_cols (abs h d) !! (k, c))).
Proof. exact C35_dataframe_headers_main. Qed.
Print Assumptions C35_dataframe_headers.
Theorem C35_headers_are_detached : forall (h : heap) (os : list hop),
  Forall (fun o => forall d, hop_df o = Some d -> wf h d) os ->
  exists hs h', run_hops [] os h = Ok (hs, h') /\ preserved h h'.
Proof. exact C35_headers_are_detached_main. Qed.
Print Assumptions C35_headers_are_detached.
Example C35_case : exists x h', (let* x := hd_columns ["a"; "b"] in let* y := hd_columns ["b"; "c"] in
    let* z := hd_and x [y] in hd_except z ["a"; "zz"]) heap0 = Ok (x, h') /\ ostr h' x = {["b"; "c"]}.
Proof.
  eexists _, _. split; [reflexivity|]. apply (bool_decide_unpack _). by vm_compute.
Qed.

(** C62 SplitStringSlice returns min(n, len) consecutive groups, all of the same
    size but the last ones; concatenated they give the slice back. *)
Theorem C62_split_string_slice : forall (s : list string) (n : Z),
  match split_string_slice s n with
  | Ok gs => concat gs = (if decide (n = 0)%Z then [] else s) /\ (0 <= n)%Z \/ s = [] /\ gs = []
  | Panic => s <> [] /\ (n < 0)%Z
  end /\
  (s <> [] -> (0 < n)%Z -> exists gs g, split_string_slice s n = Ok gs /\ Z.of_nat (length gs) = Z.min n (Z.of_nat (length s)) /\
     concat gs = s /\ forall j grp, gs !! j = Some grp -> length grp = g `min` (length s - j * g)).
Proof. exact C62_split_string_slice_main. Qed.
Print Assumptions C62_split_string_slice.
Theorem C62_empty_groups_refuted : exists (s : list string) (n : Z) gs,
  (0 < n <= Z.of_nat (length s))%Z /\ split_string_slice s n = Ok gs /\ [] ∈ gs.
Proof. exact C62_empty_groups_refuted_main. Qed.
Print Assumptions C62_empty_groups_refuted.
Theorem C62_group_indexer : forall (n g : Z), (0 <= n)%Z ->
  create_group_indexer n g = Panic <-> (g <= 0 \/ n = 0)%Z.
Proof. exact C62_group_indexer_main. Qed.
Print Assumptions C62_group_indexer.
Example C62_case : split_string_slice ["a"; "b"; "c"; "d"; "e"] 2 = Ok [["a"; "b"; "c"]; ["d"; "e"]].
Proof. by vm_compute. Qed.

(** C63 MakeRange, for all arguments: what it returns and when it panics. *)
Theorem C63_make_range : forall (from to step : Z),
  match make_range from to step with
  | Ok l =>
      (0 < step)%Z /\ (from <= to)%Z /\ (exists m, to = from + Z.of_nat m * step /\
         l = (fun i => (from + Z.of_nat i * step)%Z) <$> seq 0 m)%Z \/
      (0 < step)%Z /\ (to <= from)%Z /\ (from - to < step)%Z /\ l = [] \/
      (step < 0)%Z /\ (to <= from)%Z /\ l = replicate (Z.to_nat ((from - to) / - step)) 0%Z
  | Panic =>
      step = 0%Z \/ ((0 < step)%Z /\ (from < to)%Z /\ ~ (step | to - from)%Z) \/
      ((0 < step)%Z /\ (step <= from - to)%Z) \/ ((step < 0)%Z /\ (from < to)%Z)
  end.
Proof. exact C63_make_range_main. Qed.
Print Assumptions C63_make_range.
Theorem C63_make_range_partial : forall (from step : Z) (m : nat), (0 < step)%Z ->
  make_range from (from + Z.of_nat m * step) step = Ok ((fun i => (from + Z.of_nat i * step)%Z) <$> seq 0 m).
Proof. exact C63_make_range_partial_main. Qed.
Print Assumptions C63_make_range_partial.
Theorem C63_make_range_refuted :
  make_range 0 5 2 = Panic /\ make_range 3 0 (-1) = Ok [0; 0; 0]%Z.
Proof. exact C63_make_range_refuted_main. Qed.
Print Assumptions C63_make_range_refuted.
Example C63_case : make_range 2 8 2 = Ok [2; 4; 6]%Z.
Proof. by vm_compute. Qed.

(** C64 the CPU limit is between 1 and the number of cores after SetMaxCPU and in
    all dataframes of all histories, unless EmptyDataFrame was given an
    unusable number; derived dataframes inherit the limit. *)
Theorem C64_set_max_cpu : forall (rt : GoRT) (r : raw) (n : Z),
  (1 <= actual_max_cpu (set_max_cpu r n) <= rt_ncpu)%Z /\
  ((1 <= n <= rt_ncpu)%Z -> actual_max_cpu (set_max_cpu r n) = n).
Proof. exact C64_set_max_cpu_main. Qed.
Print Assumptions C64_set_max_cpu.
Theorem C64_history_partial : forall (rt : GoRT) (os : list op) (h : heap) (ds : list dframe) (h' : heap),
  (* EmptyDataFrame is given a usable number of CPUs *)
  Forall (fun o => forall n cpu, o = OEmpty n cpu -> (1 <= cpu <= rt_ncpu)%Z) os ->
  run_ops [] os h = Ok (ds, h') -> Forall (fun d => (1 <= actual_max_cpu (d_raw d) <= rt_ncpu)%Z) ds.
Proof. exact C64_history_partial_main. Qed.
Print Assumptions C64_history_partial.
Theorem C64_inherited : forall (rt : GoRT) (ds : list dframe) (o : op) (i : nat) (d : dframe) (h h' : heap) (ds' : list dframe) (v : dframe),
  op_source o = Some i -> ds !! i = Some d -> step ds o h = Ok (ds', h') -> v ∈ ds' ->
  v ∈ ds \/ actual_max_cpu (d_raw v) = actual_max_cpu (d_raw d).
Proof. exact C64_inherited_main. Qed.
Print Assumptions C64_inherited.
Theorem C64_empty_dataframe_refuted : exists (rt : GoRT) (d : dframe) (h h' : heap),
  empty_df 3 0 h = Ok (d, h') /\ actual_max_cpu (d_raw d) = 0%Z.
Proof. exact C64_empty_dataframe_refuted_main. Qed.
Print Assumptions C64_empty_dataframe_refuted.
Example C64_case : Forall (fun o => forall n cpu, o = OEmpty n cpu -> (1 <= cpu <= rt_ncpu)%Z) c20_os /\
  exists ds h', run_ops [] c20_os heap0 = Ok (ds, h') /\ length ds = 9.
Proof.
  split.
  - repeat (apply Forall_cons; split; [intros ? ? E; try discriminate E; injection E as <- <-; by vm_compute|]). constructor.
  - exists (w_dfs c20_os), (w_heap c20_os). by vm_compute.
Qed.

(** C65 for every iteration order, shorthands are prefixes of their columns, at
    least [minLength] long, no two are equal and they are as short as possible.
    Columns without shorthand make the display ambiguous. *)
Theorem C65_short_names : forall (minLength : Z) (order : list string) (ord : gmap string string -> list (string * string)),
  NoDup order -> (forall m, ord m ≡ₚ map_to_list m) ->
  let mn := if decide (minLength <= 0)%Z then 3 else Z.to_nat minLength in
  let res := good_short_names minLength order ord in
  (forall c s, res !! c = Some s -> c ∈ order /\ String.prefix s c = true /\ mn <= String.length s) /\
  (forall c1 c2 s, res !! c1 = Some s -> res !! c2 = Some s -> c1 = c2) /\
  (* as short as possible: every shorter prefix is taken by another column *)
  (forall c s p, res !! c = Some s -> String.prefix p c = true -> mn <= String.length p < String.length s ->
     exists c', c' <> c /\ res !! c' = Some p) /\
  (* a column without shorthand is too short or all its prefixes are taken *)
  (forall c p, c ∈ order -> res !! c = None -> String.prefix p c = true -> mn <= String.length p ->
     exists c', c' <> c /\ res !! c' = Some p).
Proof. exact C65_short_names_main. Qed.
Print Assumptions C65_short_names.
Theorem C65_display_ambiguous_refuted : exists (order : list string) (c1 c2 : string),
  NoDup order /\ c1 ∈ order /\ c2 ∈ order /\ c1 <> c2 /\
  let res := good_short_names 3 order map_to_list in
  shown_name res c1 = shown_name res c2.
Proof. exact C65_display_ambiguous_refuted_main. Qed.
Print Assumptions C65_display_ambiguous_refuted.
Example C65_case : good_short_names 2 ["price"; "prefix"; "size"] map_to_list !! "prefix" = Some "pre".
Proof. by vm_compute. Qed.

(** C68 IndexOfString returns the first position of the string, or -1. *)
Theorem C68_index_of_string : forall (e : string) (l : list string),
  index_of_string e l = (-1)%Z /\ e ∉ l \/
  exists i, index_of_string e l = Z.of_nat i /\ l !! i = Some e /\ forall j, j < i -> l !! j <> Some e.
Proof. exact C68_index_of_string_main. Qed.
Print Assumptions C68_index_of_string.
Example C68_case : index_of_string "b" ["a"; "b"; "b"] = 1%Z /\ index_of_string "z" ["a"] = (-1)%Z.
Proof. by vm_compute. Qed.
