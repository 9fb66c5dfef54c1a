(** The experiment of examples/linreg.go. *)
From Verif Require Export M_LinReg M_Auto M_Json.

Section example.
Context {rt : GoRT} {jrt : JsonRT} (bl : blas f64_arith).
Context (order : gset string -> list string) (ord : string -> bool -> gset Z -> list Z).

(** json.Marshal and json.Unmarshal of a structure behind a pointer
    (examples/linreg.go:88-101). An error of Marshal is a panic. The error of
    Unmarshal is ignored by the code, which goes on with what has been filled
    in; here it is a panic (the theorems show that there is none). *)
Definition reload {A} (f : A -> option json) (g : json -> option A) (x : A) : M A :=
  let* text := lift (match marshal f x with Some s => Ok s | None => Panic end) in
  lift (match unmarshal g text with Some y => Ok y | None => Panic end).

(** Lines 67-119 of main: from the dataframe to the mean absolute error and the
    dataframe with the predictions. [rnd] are the random numbers of
    ShuffleView, [norm] and [rnds] those of Fit. The flags -imputing and
    -scaling are [imp] and [sc]. Reading the file (lines 50-65), printing, and
    writing the result and reading it again (lines 121-135) are not included. *)
Definition example (rnd : nat -> nat) (norm : nat -> f64) (rnds : Z -> nat -> nat)
    (ratio : f64) (imp sc : bool) (target : string) (prm : lr_params f64_arith) (d : dframe) : M (f64 * dframe) :=
  let* v := shuffle_view rnd d in
  let* st := split_train_test v ratio in
  let* pv := auto_fit_transform order ord (new_auto (AutoOpt imp sc [target])) st.1 in
  let* reg := lr_fit bl order norm rnds pv.2 target prm in
  let* reg := reload linreg_json linreg_of reg in
  let* p := reload auto_json auto_of pv.1 in
  let* w := auto_transform order p st.2 in
  let* w := lift (match w with Some w => Ok w | None => Panic end) in
  let* w := lr_predict bl order reg w "y_pred" in
  let* m := mae w target w "y_pred" in
  ret (m, w).
End example.
