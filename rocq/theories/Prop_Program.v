(** The program examples/linreg.go from its file to the error: C92. *)
From Verif Require Import M_Program M_Strconv P_Check.
From Verif Require Import P_Exec.
From Verif Require Import P_PrepMain P_AutoMain P_Json3 P_OneHotMain P_LinRegMain P_ExampleMain P_CsvMain P_TextMain Spec_Json Spec_Program P_ProgramMain M_Program P_Check.
Local Open Scope nat_scope.
Local Existing Instance go_crt.
Local Existing Instance go_jrt.

(** C92 Under every schedule of the readers, the error is that of the predictions
    for the test rows of the file, by models that come from its training rows
    alone. *)
Theorem C92_program : forall (rt : GoRT) (bl : blas f64_arith) (order : gset string -> list string) (Ho : forall X, order X ≡ₚ elements X) (ord : string -> bool -> gset Z -> list Z) (Hord : forall c b X, ord c b X ≡ₚ elements X) (mord : gmap key slice -> list (key * slice)) (Hm : forall m, mord m ≡ₚ map_to_list m), forall (dl : dialect) (text : string) (header : list string) (recs : list (list string)) (cpu : Z) (exclude : list string)
    (crnd : nat -> nat) (keys q : list string) (wk : Z) (steps_done : nat) (s : pool unit)
    (rnd : nat -> nat) (norm : nat -> f64) (rnds : Z -> nat -> nat) (ratio : f64) (flag : bool) (target : string) (prm : lr_params f64_arith) (h : heap),
  let o := linreg_spec cpu exclude in
  blas_f64 bl -> params_f64 prm -> (forall i, is_f64 (norm i)) -> is_f64 ratio -> f64_isnan ratio = false ->
  csv_open dl o text = Some (header, recs) -> (Z.of_nat (length recs) <= 2 ^ 53)%Z ->
  NoDup keys -> (forall c, c ∈ keys <-> c ∈ header /\ c ∉ exclude) -> "" ∉ keys -> (forall c, c ∈ keys -> utf8 c) ->
  (exists l, wanted exclude header recs target l /\ numeric l) ->
  (exists c l, c <> target /\ wanted exclude header recs c l /\ numeric l) ->
  target <> "_target" -> target <> "y_pred" -> "_target" ∉ keys ->
  (forall c c' l l' i, wanted exclude header recs c l -> ~ numeric l -> wanted exclude header recs c' l' -> ~ numeric l' ->
     c' <> onehot_name c i /\ c' <> missing_name c) ->
  flag = true \/ (forall c l, wanted exclude header recs c l -> numeric l) ->
  csv_queue o crnd keys = (q, wk) ->
  steps false (length keys) (csv_job o header recs) steps_done (pool_init q wk h) s ->
  p_crash s = false /\ (~ closed (length keys) s -> exists s', step false (length keys) (csv_job o header recs) s s') /\
  steps_done <= 5 * length keys + Z.to_nat wk + 1 /\
  (closed (length keys) s ->
   exists t, loaded exclude header recs t /\
   let opt := AutoOpt flag flag [target] in
   let m := test_rows (length recs) ratio in
   let n := length recs - m in
   match program bl order ord mord dl text cpu exclude (w_log <$> p_ws s) rnd norm rnds ratio flag flag target prm h with
   | Ok ((e, w), h') => ~ bad_parameters t ratio prm n m /\ preserved h h' /\ wf h' w /\
       exists q r p reg a b ks t1 t2, q ≡ₚ seq 0 (length recs) /\ r ≡ₚ seq 0 m /\
         learned bl norm opt prm target (t_select (take n q) t) t1 p a b reg /\ auto_nums finite p /\ linreg_nums finite reg /\
         prepared_as once p (t_select (drop n q) t) t2 /\ num_keys t2 (lr_features reg) = Some ks /\
         abs h' w = t_insert (KFloat, "y_pred") (VFloat <$> predictions bl a b reg ks (t_select r t2)) (t_select r t2) /\
         e = mae_of f64_arith (pick (pick r (drop n q)) (t_floats t target)) (predictions bl a b reg ks (t_select r t2))
   | Panic => bad_parameters t ratio prm n m \/
       exists q p reg a b t1, q ≡ₚ seq 0 (length recs) /\ learned bl norm opt prm target (t_select (take n q) t) t1 p a b reg /\
         ~ (auto_nums finite p /\ linreg_nums finite reg)
   end).
Proof. intros rt bl order Ho ord Hord mord Hm. exact (C92_program_main bl order Ho ord Hord mord Hm). Qed.
Print Assumptions C92_program.
Theorem C92_reads : forall (rt : GoRT) (dl : dialect) (text : string) (header : list string) (recs : list (list string)) (cpu : Z) (exclude : list string)
    (crnd : nat -> nat) (keys q : list string) (wk : Z) (n : nat) (s : pool unit) (h : heap),
  let o := linreg_spec cpu exclude in
  csv_open dl o text = Some (header, recs) ->
  NoDup keys -> (forall c, c ∈ keys <-> c ∈ header /\ c ∉ exclude) -> "" ∉ keys ->
  csv_queue o crnd keys = (q, wk) ->
  steps false (length keys) (csv_job o header recs) n (pool_init q wk h) s ->
  exists m s', n <= m /\ steps false (length keys) (csv_job o header recs) m (pool_init q wk h) s' /\ closed (length keys) s'.
Proof. exact C92_reads_main. Qed.
Print Assumptions C92_reads.
Section cases.
Local Existing Instance ex_rt.
Example C92_case : csv_open plain_d (linreg_spec 1 ["z"]) wp_text = Some (wp_header, wp_recs) /\
  (forall c, c ∈ ["s"; "x"; "y"] <-> c ∈ wp_header /\ c ∉ ["z"]) /\ Forall utf8 ["s"; "x"; "y"] /\
  (wanted ["z"] wp_header wp_recs "y" ["3.5"; "5"; "9e0"; "8"] /\ numeric ["3.5"; "5"; "9e0"; "8"]) /\
  (wanted ["z"] wp_header wp_recs "x" ["1"; "NA"; "4"; " "] /\ numeric ["1"; "NA"; "4"; " "]) /\
  (wanted ["z"] wp_header wp_recs "s" ["u"; "v"; "u"; "-"] /\ ~ numeric ["u"; "v"; "u"; "-"]) /\
  (forall c c' l l' i, wanted ["z"] wp_header wp_recs c l -> ~ numeric l -> wanted ["z"] wp_header wp_recs c' l' -> ~ numeric l' ->
     c' <> onehot_name c i /\ c' <> missing_name c) /\
  (exists q wk m s, csv_queue (linreg_spec 1 ["z"]) Datatypes.id ["s"; "x"; "y"] = (q, wk) /\
     steps false 3 (csv_job (linreg_spec 1 ["z"]) wp_header wp_recs) m (pool_init q wk heap0) s /\ closed 3 s) /\
  exists w h', wp_run = Ok ((f64_div (f64_of_Z 3) (f64_of_Z 2), w), h') /\ t_floats (abs h' w) "y" = [f64_of_Z 5; f64_of_Z 8].
Proof. exact C92_check_main. Qed.
End cases.
