(** OneHotEncoder: preprocessing/one_hot.go. *)
From Verif Require Export M_Prep.
From stdpp Require Export pretty.

(** CategoryPolicy (one_hot.go:26-44) and OneHotOptions (one_hot.go:9-13). *)
Inductive cat_policy := PIfSeen | PShared | PSeparate | PFrequent | PError.
Global Instance cat_policy_eq : EqDecision cat_policy.
Proof. solve_decision. Defined.
Record oh_opt := OhOpt { oh_missing : cat_policy; oh_unknown : cat_policy; oh_keep : bool }.
(** fix (one_hot.go:231-247); NewOneHotEncoder (one_hot.go:47-53) calls it. *)
Definition oh_fix (opt : oh_opt) : oh_opt :=
  let opt := if decide (oh_missing opt = PShared)
             then if decide (oh_unknown opt <> PShared)
                  then OhOpt (oh_unknown opt) PShared (oh_keep opt)
                  else OhOpt PIfSeen (oh_unknown opt) (oh_keep opt)
             else opt in
  if decide (oh_unknown opt = PIfSeen) then OhOpt (oh_missing opt) PSeparate (oh_keep opt) else opt.

(** The names of new columns (one_hot.go:84, 90, 95, 100). *)
Definition onehot_name (c : string) (i : nat) : string := c +:+ "_onehot" +:+ pretty i.
Definition missing_name (c : string) : string := c +:+ "_missing".
Definition unk_name (c : string) : string := c +:+ "_unk".

(** OneHotEncoder (one_hot.go:18-24). The slices in Fallback have length 2. *)
Record encoder := Encoder {
  en_cats : list string; en_new : list string;
  en_map : gmap string (gmap Z string); en_fb : gmap string (string * string);
  en_opt : oh_opt }.

(** workerFits (one_hot.go:55-107) for the column [col] with values [vs]. [ord]:
    the order of the two loops over the map freqs. *)
Definition count_cats (vs : list Z) : gmap Z Z :=
  foldl (fun m v => <[v := (default 0 (m !! v) + 1)%Z]> m) ∅ vs.
Definition most_common (freqs : gmap Z Z) (cats : list Z) : Z :=
  (foldl (fun p v => let f := default 0%Z (freqs !! v) in if decide (p.1 < f)%Z then (f, v) else p) ((-1)%Z, 0%Z) cats).2.
Definition name_cats (col : string) (cats : list Z) : gmap Z string :=
  list_to_map (imap (fun i v => (v, onehot_name col i)) cats).
Definition fit_cats (opt : oh_opt) (ord : bool -> gset Z -> list Z) (col : string) (vs : list Z)
  : gmap Z string * (string * string) :=
  let freqs := count_cats vs in
  let missingSeen := bool_decide (is_Some (freqs !! (-1)%Z)) in
  let freqs := delete (-1)%Z freqs in
  let mostCommon := if decide (oh_missing opt <> PError \/ oh_unknown opt <> PError)
                    then most_common freqs (ord false (dom freqs)) else 0%Z in
  let toNew := name_cats col (ord true (dom freqs)) in
  let common := default "" (toNew !! mostCommon) in
  let fb0 := match oh_missing opt with
             | PIfSeen => if missingSeen then missing_name col else common
             | PSeparate => missing_name col
             | PFrequent => common
             | PShared | PError => ""
             end in
  let fb1 := match oh_unknown opt with
             | PSeparate => unk_name col
             | PFrequent => common
             | PShared => fb0
             | PIfSeen | PError => ""
             end in
  (toNew, (fb0, fb1)).
Definition int_of (v : val) : Z := match v with VInt z => z | _ => 0 end.
Definition oh_fit_job (opt : oh_opt) (ord : string -> bool -> gset Z -> list Z) (m : gmap key slice) (d : dframe)
  (c : string) : job (gmap Z string * (string * string)) :=
  match m !! (KInt, c) with
  | Some s => read_job s (inds d) [] (fun vs => JRet (fit_cats opt (ord c) c (int_of <$> vs)))
  | None => JPanic
  end.

(** The jobs one after the other; for arbitrary schedules see M_Pool.v. *)
Fixpoint run_jobs {R} (prog : string -> job R) (keys : list string) : M (list (string * R)) :=
  match keys with
  | [] => ret []
  | k :: keys => fun h => match run_job (prog k) h with
      | Some (r, h1) => (let* l := run_jobs prog keys in ret ((k, r) :: l)) h1
      | None => Panic
      end
  end.

(** The columns made for the entries of Categories and Fallback of one column
    (one_hot.go:130-158); [None]: panic. *)
Definition oh_columns (opt : oh_opt) (r : gmap Z string * (string * string)) : option (list string) :=
  let '(toNew, (fb0, fb1)) := r in
  let names := (map_to_list toNew).*2 in
  if decide (fb0 = "" /\ oh_missing opt <> PError) then None
  else if decide (fb1 = "" /\ oh_unknown opt <> PError) then None
  else Some (names ++ (if decide (fb0 = "") then [] else [fb0]) ++
             (if decide (fb1 = "" \/ fb1 = fb0) then [] else [fb1])).
(** Fit (one_hot.go:110-160): [results] are the entries made by the workers. *)
Definition oh_collect (order : gset string -> list string) (opt : oh_opt) (cols : list string)
  (results : list (string * (gmap Z string * (string * string)))) : M encoder :=
  match mapM (fun p => oh_columns opt p.2) results with
  | Some new => ret (Encoder cols (order (list_to_set (concat new)))
                       (list_to_map ((fun p => (p.1, p.2.1)) <$> results))
                       (list_to_map ((fun p => (p.1, p.2.2)) <$> results)) opt)
  | None => panic
  end.
Definition oh_fit (order : gset string -> list string) (ord : string -> bool -> gset Z -> list Z)
  (opt : oh_opt) (d : dframe) : M encoder :=
  let* m := get_mp (r_maps (d_raw d)) in
  let cols := order (names_of KInt m) in
  let* results := run_jobs (oh_fit_job opt ord m d) cols in
  oh_collect order opt cols results.

(** The column whose flag is set for category [z] of column [c] (one_hot.go:
    179-194), [None]: error. *)
Definition flag_for (e : encoder) (c : string) (z : Z) : option string :=
  let fb := default ("", "") (en_fb e !! c) in
  if decide (z = -1)%Z then if decide (oh_missing (en_opt e) = PError) then None else Some fb.1
  else match default ∅ (en_map e !! c) !! z with
       | Some newCol => Some newCol
       | None => if decide (oh_unknown (en_opt e) = PError) then None else Some fb.2
       end.
Fixpoint flag_loop (e : encoder) (m : gmap key slice) (c : string) (s : slice) (ix : list nat) : job bool :=
  match ix with
  | [] => JRet false
  | i :: ix =>
      if decide (i < s_len s) then
        JRd (s_arr s, s_off s + i) (fun v =>
          match flag_for e c (int_of v) with
          | None => JRet true
          | Some newCol =>
              match m !! (KBool, newCol) with
              | Some t => if decide (i < s_len t)
                          then JWr (s_arr t, s_off t + i) (VBool true) (flag_loop e m c s ix) else JPanic
              | None => JPanic
              end
          end)
      else JPanic
  end.
(** workerTransforms (one_hot.go:162-198) for column [c]; the result says whether
    there was an error. df.Bools of the fallback columns comes first. *)
Definition oh_job (e : encoder) (m : gmap key slice) (d : dframe) (c : string) : job bool :=
  let fb := default ("", "") (en_fb e !! c) in
  match m !! (KInt, c) with
  | Some s =>
      if decide ((oh_missing (en_opt e) <> PError /\ m !! (KBool, fb.1) = None) \/
                 (oh_unknown (en_opt e) <> PError /\ m !! (KBool, fb.2) = None)) then JPanic
      else flag_loop e m c s (inds d)
  | None => JPanic
  end.

Section frame.
Context {rt : GoRT}.
(** TransformView (one_hot.go:201-224) up to the creation of the queue. *)
Definition oh_prepare (e : encoder) (d : dframe) : M dframe :=
  let result := view d in
  let* r := alloc_cols KBool (d_raw result) (en_new e) in
  ret (set_raw result r).
(** The rest, from the errors of the workers; [None]: an error is returned. *)
Definition oh_finish (e : encoder) (result : dframe) (errs : list (string * bool)) : M (option dframe) :=
  if existsb snd errs then ret None else
  (if oh_keep (en_opt e) then ret tt else drop_cols (d_raw result) (en_cats e)) ;;*
  ret (Some result).
Definition oh_transform (e : encoder) (d : dframe) : M (option dframe) :=
  if decide (en_cats e = []) then ret (Some (view d)) else
  let* result := oh_prepare e d in
  let* m := get_mp (r_maps (d_raw result)) in
  let* errs := run_jobs (oh_job e m result) (en_cats e) in
  oh_finish e result errs.
End frame.
