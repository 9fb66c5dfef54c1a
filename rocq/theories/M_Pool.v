(** The worker pool: utils/string_q.go and the goroutines that use it, as a
    transition system. One transition is one channel operation or one access
    to one memory cell, of any goroutine. *)
From Verif Require Export M_Frame.

Notation addr := (nat * nat)%type.
Definition mem_get (h : heap) (a : addr) : option val := arr h a.1 !! a.2.
Definition mem_set (h : heap) (a : addr) (v : val) : heap :=
  set_arr h a.1 (<[a.2 := v]> (arr h a.1)).

(** What a worker does with one key: reads and writes of cells, ending with the
    contents of its notification. *)
Inductive job (R : Type) :=
| JRet (r : R)
| JPanic
| JRd (a : addr) (f : val -> job R)
| JWr (a : addr) (v : val) (j : job R).
Global Arguments JRet {R} r.
Global Arguments JPanic {R}.
Global Arguments JRd {R} a f.
Global Arguments JWr {R} a v j.

(** The same job alone. *)
Fixpoint run_job {R} (j : job R) (h : heap) : option (R * heap) :=
  match j with
  | JRet r => Some (r, h)
  | JPanic => None
  | JRd a f => match mem_get h a with Some v => run_job (f v) h | None => None end
  | JWr a v j => match mem_get h a with Some _ => run_job j (mem_set h a v) | None => None end
  end.

(** for _, i := range indices { output[i] = f(input[i]) } *)
Fixpoint map_job (f : val -> val) (input output : slice) (ix : list nat) : job unit :=
  match ix with
  | [] => JRet tt
  | i :: ix =>
      if decide (i < s_len input) then
        JRd (s_arr input, s_off input + i) (fun v =>
          if decide (i < s_len output) then
            JWr (s_arr output, s_off output + i) (f v) (map_job f input output ix)
          else JPanic)
      else JPanic
  end.
(** workerHashes (view.go:335-350) for column [c], given the maps of the input
    and of the output dataframe, which no worker changes. *)
Definition hash_job (mi mo : gmap key slice) (d : dframe) (c : string) : job unit :=
  map_job hash_val (default nil_slice (mi !! (KObj, c))) (default nil_slice (mo !! (KInt, c))) (inds d).
(** HashStringsView (view.go:365-376) up to the creation of the queue, columns
    being non-empty. *)
Definition hash_prepare (d : dframe) (cols : list string) : M dframe :=
  let* m := get_mp (r_maps (d_raw d)) in
  let others := elements (names m ∖ list_to_set cols) in
  let* result := column_view d others in
  forM cols (fun c =>
    let* s := make_slice KInt (num_alloc_rows m) in put_col (r_maps (d_raw result)) (KInt, c) s) ;;*
  ret result.

(** CreateStringQueue (string_q.go:18-42): the keys in the order in which they
    are pushed, and the number of workers. *)
Definition create_queue (rnd : nat -> nat) (keys : list string) (max_workers : Z) : list string * Z :=
  if decide (length keys = 0) then (keys, 1%Z)
  else if decide (Z.of_nat (length keys) < max_workers)%Z then (keys, Z.of_nat (length keys))
  else (omap (fun i => keys !! i) (shuffle rnd (seq 0 (length keys))), max_workers).

(** FromCSVFilePattern (csv_parsing.go:286-296), at least two files: the CPUs
    per file and the maximum number of workers, from options.MaxCPU, the
    number of CPUs and the number of files. *)
Definition pattern_workers (max_cpu_opt ncpu files : Z) : Z * Z :=
  let cpu := if decide (max_cpu_opt <= 0)%Z then ncpu else max_cpu_opt in
  let per_file := Z.quot cpu files in
  let per_file := if decide (per_file = 0)%Z then 1%Z else per_file in
  (per_file, Z.quot files per_file).

Section pool.
Context {R : Type}.
Notation note := (string * R)%type. (* ProcessedJob: Key and Error or Result *)

(** A worker, e.g. workerHashes (view.go:331-352), is about to call Next,
    processes a key, notifies, or is leaving, running its deferred Notify
    calls, the last one first. [w_log] records the keys it was given. *)
Inductive wstate :=
| WNext
| WRun (k : string) (j : job R)
| WSend (k : string) (r : R)
| WExit.
Record worker := Worker { w_st : wstate; w_def : list note; w_log : list string }.
(** The pool: the keys left in the closed channel Keys, the workers, the channel
    Errors, what Results or Wait has received, the memory, and whether the
    program has crashed. *)
Record pool := Pool {
  p_q : list string; p_ws : list worker; p_chan : list note; p_got : list note;
  p_heap : heap; p_crash : bool }.

(** [deferred]: whether the worker says defer q.Notify (HashStringsView, Scaler,
    FloatImputer, OneHotEncoder.Fit) or q.Notify (OneHotEncoder.TransformView,
    FromCSV, FromCSVFilePattern); [n]: NumJobs, also the capacity of Errors. *)
Context (deferred : bool) (n : nat) (prog : string -> job R).

Definition set_w (s : pool) (i : nat) (w : worker) : pool :=
  Pool (p_q s) (<[i := w]> (p_ws s)) (p_chan s) (p_got s) (p_heap s) (p_crash s).
Definition crash (s : pool) : pool :=
  Pool (p_q s) (p_ws s) (p_chan s) (p_got s) (p_heap s) true.
(** Results and Wait (string_q.go:44-59) close Errors once they have received
    everything. *)
Definition closed (s : pool) : Prop := n <= length (p_got s).

Inductive step : pool -> pool -> Prop :=
(* Next (string_q.go:61-67) returns a key *)
| s_next s i dl lg k q : p_crash s = false -> p_ws s !! i = Some (Worker WNext dl lg) ->
    p_q s = k :: q -> k <> "" ->
    step s (set_w (Pool q (p_ws s) (p_chan s) (p_got s) (p_heap s) false) i (Worker (WRun k (prog k)) dl (lg ++ [k])))
(* it returns the empty string, which ends the loop *)
| s_empty s i dl lg q : p_crash s = false -> p_ws s !! i = Some (Worker WNext dl lg) ->
    p_q s = "" :: q ->
    step s (set_w (Pool q (p_ws s) (p_chan s) (p_got s) (p_heap s) false) i (Worker WExit dl lg))
| s_closed s i dl lg : p_crash s = false -> p_ws s !! i = Some (Worker WNext dl lg) ->
    p_q s = [] -> step s (set_w s i (Worker WExit dl lg))
(* one access to a cell *)
| s_rd s i dl lg k a f v : p_crash s = false -> p_ws s !! i = Some (Worker (WRun k (JRd a f)) dl lg) ->
    mem_get (p_heap s) a = Some v -> step s (set_w s i (Worker (WRun k (f v)) dl lg))
| s_wr s i dl lg k a v j : p_crash s = false -> p_ws s !! i = Some (Worker (WRun k (JWr a v j)) dl lg) ->
    is_Some (mem_get (p_heap s) a) ->
    step s (set_w (Pool (p_q s) (p_ws s) (p_chan s) (p_got s) (mem_set (p_heap s) a v) false) i (Worker (WRun k j) dl lg))
| s_rd_fault s i dl lg k a f : p_crash s = false -> p_ws s !! i = Some (Worker (WRun k (JRd a f)) dl lg) ->
    mem_get (p_heap s) a = None -> step s (crash s)
| s_wr_fault s i dl lg k a v j : p_crash s = false -> p_ws s !! i = Some (Worker (WRun k (JWr a v j)) dl lg) ->
    mem_get (p_heap s) a = None -> step s (crash s)
| s_panic s i dl lg k : p_crash s = false -> p_ws s !! i = Some (Worker (WRun k JPanic) dl lg) -> step s (crash s)
(* the end of the loop body *)
| s_ret_now s i dl lg k r : p_crash s = false -> p_ws s !! i = Some (Worker (WRun k (JRet r)) dl lg) ->
    deferred = false -> step s (set_w s i (Worker (WSend k r) dl lg))
| s_ret_def s i dl lg k r : p_crash s = false -> p_ws s !! i = Some (Worker (WRun k (JRet r)) dl lg) ->
    deferred = true -> step s (set_w s i (Worker WNext ((k, r) :: dl) lg))
(* Notify (string_q.go:69-71) waits for room in the channel *)
| s_send s i dl lg k r : p_crash s = false -> p_ws s !! i = Some (Worker (WSend k r) dl lg) ->
    ~ closed s -> length (p_chan s) < n ->
    step s (set_w (Pool (p_q s) (p_ws s) (p_chan s ++ [(k, r)]) (p_got s) (p_heap s) false) i (Worker WNext dl lg))
| s_send_exit s i x dl lg : p_crash s = false -> p_ws s !! i = Some (Worker WExit (x :: dl) lg) ->
    ~ closed s -> length (p_chan s) < n ->
    step s (set_w (Pool (p_q s) (p_ws s) (p_chan s ++ [x]) (p_got s) (p_heap s) false) i (Worker WExit dl lg))
(* send on a closed channel *)
| s_send_closed s i k r dl lg : p_crash s = false -> p_ws s !! i = Some (Worker (WSend k r) dl lg) ->
    closed s -> step s (crash s)
| s_exit_closed s i x dl lg : p_crash s = false -> p_ws s !! i = Some (Worker WExit (x :: dl) lg) ->
    closed s -> step s (crash s)
(* Results or Wait receives *)
| s_collect s x c : p_crash s = false -> p_chan s = x :: c -> ~ closed s ->
    step s (Pool (p_q s) (p_ws s) c (p_got s ++ [x]) (p_heap s) false).

(** All goroutines started, none has run. *)
Definition pool_init (keys : list string) (workers : Z) (h : heap) : pool :=
  Pool keys (replicate (Z.to_nat workers) (Worker WNext [] [])) [] [] h false.

Inductive steps : nat -> pool -> pool -> Prop :=
| steps_0 s : steps 0 s s
| steps_S m s1 s2 s3 : steps m s1 s2 -> step s2 s3 -> steps (S m) s1 s3.
End pool.
Global Arguments wstate : clear implicits.
Global Arguments worker : clear implicits.
Global Arguments pool : clear implicits.
