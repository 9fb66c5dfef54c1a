(** The experiment of examples/linreg.go: C90. *)
From Verif Require Import M_Example P_Check.
From Verif Require Import P_PrepMain P_AutoMain P_Json3 P_OneHotMain P_LinRegMain P_ExampleMain Spec_Json M_Example P_Check.
Local Open Scope nat_scope.

(** C90 The models come from the training rows alone, the error is that of the
    test rows, and the dataframe is left as it was. *)
Theorem C90_example_partial : forall (rt : GoRT) (jrt : JsonRT) (bl : blas f64_arith) (order : gset string -> list string) (Ho : forall X, order X ≡ₚ elements X) (ord : string -> bool -> gset Z -> list Z) (Hord : forall c b X, ord c b X ≡ₚ elements X), forall (rnd : nat -> nat) (norm : nat -> f64) (rnds : Z -> nat -> nat) (ratio : f64) (flag : bool) (target : string) (prm : lr_params f64_arith) (h : heap) (d : dframe),
  exact_numbers -> blas_f64 bl -> params_f64 prm -> (forall i, is_f64 (norm i)) -> is_f64 ratio -> f64_isnan ratio = false ->
  wf h d -> NoDup (inds d) -> (Z.of_nat (num_rows d) <= 2 ^ 53)%Z ->
  unique_names (abs h d) -> strings_ok (abs h d) -> no_clash (abs h d) -> good_names (abs h d) -> good_floats (abs h d) ->
  is_Some (t_cols (abs h d) !! (KFloat, target)) -> (exists c, c <> target /\ is_Some (t_cols (abs h d) !! (KFloat, c))) ->
  target <> "_target" -> target <> "y_pred" -> t_cols (abs h d) !! (KFloat, "_target") = None -> t_cols (abs h d) !! (KBool, "_target") = None ->
  flag = true \/ (forall c, ~ categorical (abs h d) c) ->
  let t := abs h d in
  let opt := AutoOpt flag flag [target] in
  let m := test_rows (t_rows t) ratio in
  let n := t_rows t - m in
  match example bl order ord rnd norm rnds ratio flag flag target prm d h with
  | Ok ((e, w), h') => ~ bad_parameters t ratio prm n m /\ preserved h h' /\ wf h' w /\
      exists q r p reg a b ks t1 t2, q ≡ₚ seq 0 (t_rows t) /\ r ≡ₚ seq 0 m /\
        learned bl norm opt prm target (t_select (take n q) t) t1 p a b reg /\ auto_nums finite p /\ linreg_nums finite reg /\
        prepared_as once p (t_select (drop n q) t) t2 /\ num_keys t2 (lr_features reg) = Some ks /\
        abs h' w = t_insert (KFloat, "y_pred") (VFloat <$> predictions bl a b reg ks (t_select r t2)) (t_select r t2) /\
        e = mae_of f64_arith (pick (pick r (drop n q)) (t_floats t target)) (predictions bl a b reg ks (t_select r t2))
  | Panic => bad_parameters t ratio prm n m \/
      exists q p reg a b t1, q ≡ₚ seq 0 (t_rows t) /\ learned bl norm opt prm target (t_select (take n q) t) t1 p a b reg /\
        ~ (auto_nums finite p /\ linreg_nums finite reg)
  end.
Proof. intros rt jrt bl order Ho ord Hord. exact (C90_example_partial_main bl order Ho ord Hord). Qed.
Print Assumptions C90_example_partial.
Theorem C90_flags : forall (rt : GoRT) (jrt : JsonRT) (bl : blas f64_arith) (order : gset string -> list string) (Ho : forall X, order X ≡ₚ elements X) (ord : string -> bool -> gset Z -> list Z) (Hord : forall c b X, ord c b X ≡ₚ elements X), forall (rnd : nat -> nat) (norm : nat -> f64) (rnds : Z -> nat -> nat) (ratio : f64) (imp sc : bool) (target : string) (prm : lr_params f64_arith) (h : heap) (d : dframe),
  wf h d -> strings_ok (abs h d) -> (Z.of_nat (num_rows d) <= 2 ^ 53)%Z -> is_f64 ratio -> f64_isnan ratio = false ->
  imp <> sc \/ imp = false /\ sc = false /\ (exists c, categorical (abs h d) c) ->
  example bl order ord rnd norm rnds ratio imp sc target prm d h = Panic.
Proof. intros rt jrt bl order Ho ord Hord. exact (C90_flags_main bl order Ho ord Hord). Qed.
Print Assumptions C90_flags.
Section cases.
Local Existing Instance ex_rt.
Local Existing Instance ex_jrt.
Example C90_case : exact_numbers /\ blas_f64 fbl /\ params_f64 lw_params /\ is_f64 f_half /\ f64_isnan f_half = false /\
  wf we_frame.2 we_frame.1 /\ NoDup (inds we_frame.1) /\ unique_names we_t /\ strings_ok we_t /\ no_clash we_t /\ good_names we_t /\ good_floats we_t /\
  is_Some (t_cols we_t !! (KFloat, "y")) /\ is_Some (t_cols we_t !! (KFloat, "x")) /\
  t_cols we_t !! (KFloat, "_target") = None /\ t_cols we_t !! (KBool, "_target") = None /\
  we_run "y" we_frame = Ok we /\ test_rows 4 f_half = 2 /\
  t_floats (abs we.2 we.1.2) "y" = [fz 5; fz 8] /\ length (t_floats (abs we.2 we.1.2) "y_pred") = 2 /\
  we.1.1 = mae_of f64_arith [fz 5; fz 8] (t_floats (abs we.2 we.1.2) "y_pred") /\ f64_lt f64_zero we.1.1 = true.
Proof. exact C90_check_main. Qed.
(** The target is the only float column: the error is not that of the data. *)
Theorem C90_only_target_refuted : exists (h : heap) (d : dframe) (e : f64) (w : dframe) (h' : heap), wf h d /\
  example fbl elts ord0 (fun i => i / 2) (fun _ => f64_one) (fun _ _ => 0) f_half true true "y" lw_params d h = Ok ((e, w), h') /\
  forall x, x ∈ t_floats (abs h' w) "y" -> x ∉ t_floats (abs h d) "y".
Proof. exact C90_only_target_refuted_main. Qed.
Print Assumptions C90_only_target_refuted.
(** A target called "y_pred" is overwritten by the predictions. *)
Theorem C90_target_name_refuted : exists (h : heap) (d : dframe) (e : f64) (w : dframe) (h' : heap), wf h d /\
  example fbl elts ord0 (fun i => i / 2) (fun _ => f64_one) (fun _ _ => 0) f_half true true "y_pred" lw_params d h = Ok ((e, w), h') /\
  e = f64_zero /\ forall x, x ∈ t_floats (abs h' w) "y_pred" -> x ∉ t_floats (abs h d) "y_pred".
Proof. exact C90_target_name_refuted_main. Qed.
Print Assumptions C90_target_name_refuted.
End cases.
