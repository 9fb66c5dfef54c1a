(** Several files: C84; jobs that interfere: more on C42. *)
From Verif Require Import P_FilesMain P_Exec P_CsvMain P_PrepMain P_Check.

(** C84 FromCSVFilePattern: which files are read. *)
Theorem C84_pattern_paths : forall (glob : option (list string)) (stat : string -> option bool),
  (pattern_paths glob stat = PError <-> forall names, glob = Some names -> exists f, f ∈ names /\ stat f = None) /\
  forall names, glob = Some names -> (forall f, f ∈ names -> stat f <> None) ->
    let files := filter (fun f => stat f = Some true) names in
    (pattern_paths glob stat = PNothing <-> files = []) /\
    (forall p, pattern_paths glob stat = POne p <-> files = [p]) /\
    (forall ps, pattern_paths glob stat = PMany ps <-> files = ps /\ 2 <= length ps).
Proof. exact C84_pattern_paths_main. Qed.
Print Assumptions C84_pattern_paths.
(** Under every schedule of the workers: it ends, reports an error if a file
    cannot be read, and puts the columns together in the order of arrival. *)
Theorem C84_files_partial : forall (crt : CsvRT) (rt : GoRT), forall (o : rspec) (content : string -> option (list (list string))) (paths : list string)
    (max_cpu_opt ncpu : Z) (rnd : nat -> nat) (h : heap) q w m s,
  default_types o -> NoDup paths -> "" ∉ paths -> 2 <= length paths -> (1 <= ncpu)%Z ->
  (* there is a worker *)
  (let cpu := if decide (max_cpu_opt <= 0)%Z then ncpu else max_cpu_opt in
   cpu < Z.of_nat (length paths) * (Z.of_nat (length paths) + 1))%Z ->
  (* the records are as long as the header *)
  (forall p header recs, p ∈ paths -> read_split o content p = Some (header, recs) -> wide header recs) ->
  create_queue rnd paths (pattern_workers max_cpu_opt ncpu (Z.of_nat (length paths))).2 = (q, w) ->
  steps false (length paths) (file_job o content) m (pool_init q w h) s ->
  (* it ends *)
  m <= 4 * length paths + Z.to_nat w + 1 /\ p_crash s = false /\
  (~ closed (length paths) s -> exists s', step false (length paths) (file_job o content) s s') /\
  (closed (length paths) s -> p_heap s = h /\
    exists arrival, arrival ≡ₚ paths /\ (p_got s).*1 = arrival /\
    (* an error if one file has an error *)
    ((exists p, p ∈ paths /\ read_split o content p = None) -> forall logs, pattern_result o (p_got s) logs h = Ok (None, h)) /\
    (* otherwise the columns are put together in the order of arrival *)
    ((forall p, p ∈ paths -> read_split o content p <> None) ->
      forall logs tabs, 
      Forall2 (fun p (x : list (list string) * gmap key (list val)) => exists header recs, read_split o content p = Some (header, recs) /\
        NoDup (concat x.1) /\ (forall c, c ∈ concat x.1 <-> c ∈ header /\ c ∉ rs_exclude o) /\ file_table o header recs x.2)
        arrival (zip logs tabs) -> length logs = length tabs ->
      exists r h', pattern_result o (p_got s) logs h = Ok (Some r, h') /\ preserved h h' /\
        forall k vs, raw_cols h' r !! k = Some vs <->
          (exists tab, tab ∈ tabs /\ is_Some (tab !! k)) /\ vs = concat ((fun tab => default [] (tab !! k)) <$> tabs))).
Proof. intros crt rt. exact C84_files_partial_main. Qed.
Print Assumptions C84_files_partial.
Section cases.
Local Existing Instances ex_crt ex_rt.
Example C84_case :
  pattern_paths (Some ["x.csv"; "sub"; "y.csv"]) (fun f => Some (negb (bool_decide (f = "sub")))) = PMany ["x.csv"; "y.csv"] /\
  (forall p header recs, read_split ro0 c84_content p = Some (header, recs) -> wide header recs) /\
  create_queue id ["x.csv"; "y.csv"] (pattern_workers 0 4 2).2 = (["x.csv"; "y.csv"], 1%Z) /\
  create_queue (fun _ => 0) ["x.csv"; "y.csv"] (pattern_workers 3 4 2).2 = (["y.csv"; "x.csv"], 2%Z) /\
  steps false 2 (file_job ro0 c84_content) 8 (c84_start ["y.csv"; "x.csv"]) (c84_end ["y.csv"; "x.csv"]) /\
  closed 2 (c84_end ["y.csv"; "x.csv"]) /\ (p_got (c84_end ["y.csv"; "x.csv"])).*1 = ["x.csv"; "y.csv"] /\
  match pattern_result ro0 (p_got (c84_end ["y.csv"; "x.csv"])) [[["b"; "a"]]; [["a"]; ["b"]]] heap0 with
  | Ok (Some r, h) => raw_cols h r !! (KInt, "a") = Some [VInt 7; VInt 8; VInt 9] /\
      raw_cols h r !! (KObj, "b") = Some (VObj ∘ OStr <$> ["u"; "v"; "w"])
  | _ => False
  end /\
  (* one of them does not exist *)
  closed 2 (c84_end ["x.csv"; "z.csv"]) /\ (p_got (c84_end ["x.csv"; "z.csv"])).*2 = [None; Some (["a"; "b"], [["7"; "u"]])] /\
  pattern_result ro0 (p_got (c84_end ["x.csv"; "z.csv"])) [] heap0 = Ok (None, heap0).
Proof. exact C84_check_main. Qed.
End cases.

(** C42 Two columns that share their storage: two complete executions of
    Scaler.TransformInplace with different results. *)
Theorem C42_shared_storage_refuted : exists (h : heap) (d : dframe) (sc : scaler f64_arith) (m1 m2 : nat) (s1 s2 : pool unit),
  wf h d /\ show KFloat "a" h d = Some [VFloat (fz 0)] /\ dom (sc_shift sc) = {["a"; "b"]} /\
  let prog := scale_job sc (mp h (r_maps (d_raw d))) d in
  create_queue id ["a"; "b"] 3 = (["a"; "b"], 2%Z) /\
  steps true 2 prog m1 (pool_init ["a"; "b"] 2 h) s1 /\ closed 2 s1 /\ p_crash s1 = false /\ show KFloat "a" (p_heap s1) d = Some [VFloat (fz 2)] /\
  steps true 2 prog m2 (pool_init ["a"; "b"] 2 h) s2 /\ closed 2 s2 /\ p_crash s2 = false /\ show KFloat "a" (p_heap s2) d = Some [VFloat (fz 1)].
Proof. exact C42_shared_storage_refuted_main. Qed.
Print Assumptions C42_shared_storage_refuted.
