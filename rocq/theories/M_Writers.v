(** The goroutines of ToCSVs (dataframe/csv_writing.go:111-142) as a transition
    system: any number of them write at the same time. M_CsvW.to_csvs is one
    particular execution, in which they run one after the other.

    The goroutines share the heap (they allocate headers and read the columns),
    the writers, the slice of errors and the WaitGroup. One step is reading the
    headers, one batch of 256 rows with its flush, the assignment to err[0],
    wg.Done, or the end of the process after a panic. encoding/csv may call the
    writer more than once per flush; that only matters for two goroutines with the
    same writer. *)
From Verif Require Export M_CsvW.

Inductive gor :=
| GStart
| GLoop (keys : list key) (ks : list nat) (batch pend : list (list string)) (* To1CSV is in its loop: [ks] are the remaining entries of df.indices *)
| GBack (failed : bool)  (* To1CSV has returned *)
| GSet                   (* err[0] is set *)
| GDone                  (* wg.Done was called *)
| GPanic                 (* To1CSV panics *)
| GCrash.                (* the deferred wg.Done was called, the process is about to end *)

(** A writer: the records written so far and the number of flushes. *)
Record wr_state := WrState {
  w_gors : list gor; w_files : list (list (list string) * nat); w_errs : list bool;
  w_wait : nat;          (* the counter of the WaitGroup *)
  w_ret : option bool;   (* ToCSVs has returned; with an error? *)
  w_dead : bool;         (* a panic has ended the process *)
  w_heap : heap }.

Section writers.
Context {crt : CsvRT}.
Context (order : nat -> nat -> gset string -> list string) (flush : nat -> nat -> bool) (o : wspec) (dfs : list dframe).
(** [ws !! i] is the writer of goroutine [i]: the caller may pass a writer twice. *)
Context (ws : list nat).

(** Flush of encoding/csv: nothing is written if the buffer is empty. *)
Definition w_flush (w : nat) (recs : list (list string)) (files : list (list (list string) * nat)) : list (list (list string) * nat) * bool :=
  match recs, files !! w with
  | [], _ | _, None => (files, true)
  | _, Some (out, n) => if flush w n then (<[w := (out ++ recs, S n)]> files, true) else (<[w := (out, S n)]> files, false)
  end.

(** threadedTo1CSV (csv_writing.go:111-114) and To1CSV (csv_writing.go:36-109) of
    goroutine [i]. *)
Definition gor_step (i : nat) (s : wr_state) : option wr_state :=
  let '(WrState gs files errs wait rt dead h) := s in
  match gs !! i, dfs !! i, ws !! i with
  | Some g, Some d0, Some w =>
      let d := sort_if_needed o d0 in
      match g with
      | GStart =>
          match csv_keys (order i) d h with
          | Ok (keys, h) => Some (WrState (<[i := GLoop keys (inds d) (replicate batch_rows (replicate (length keys) "")) [snd <$> keys]]> gs) files errs wait rt dead h)
          | Panic => Some (WrState (<[i := GPanic]> gs) files errs wait rt dead h)
          end
      | GLoop keys [] batch pend => (* return nil, then the deferred writer.Flush() *)
          Some (WrState (<[i := GBack false]> gs) (w_flush w pend files).1 errs wait rt dead h)
      | GLoop keys ks batch pend =>
          let part := take batch_rows ks in
          match fill_cols (ws_marker o) (get_col h (mp h (r_maps (d_raw d))) <$> keys) 0 part batch with
          | Panic => Some (WrState (<[i := GPanic]> gs) (w_flush w pend files).1 errs wait rt dead h)
          | Ok batch =>
              let r := w_flush w (pend ++ take (length part) batch) files in
              Some (WrState (<[i := if r.2 then GLoop keys (drop batch_rows ks) batch [] else GBack true]> gs) r.1 errs wait rt dead h)
          end
      | GBack failed => Some (WrState (<[i := GSet]> gs) files (<[i := failed]> errs) wait rt dead h)
      | GSet => Some (WrState (<[i := GDone]> gs) files errs (wait - 1) rt dead h)
      | GPanic => Some (WrState (<[i := GCrash]> gs) files errs (wait - 1) rt dead h)
      | GCrash => Some (WrState gs files errs wait rt true h)
      | GDone => None
      end
  | _, _, _ => None
  end.
(** wg.Wait and the loop over the errors (csv_writing.go:134-141). *)
Definition main_step (s : wr_state) : option wr_state :=
  let '(WrState gs files errs wait rt dead h) := s in
  match rt, wait with
  | None, 0 => Some (WrState gs files errs wait (Some (existsb (fun e => e) errs)) dead h)
  | _, _ => None
  end.
(** [Some i] is goroutine [i], [None] the caller of ToCSVs. *)
Definition w_step (who : option nat) (s : wr_state) : option wr_state :=
  if w_dead s then None else match who with Some i => gor_step i s | None => main_step s end.
Definition w_next (s s' : wr_state) : Prop := exists who, w_step who s = Some s'.
(** A given schedule. *)
Fixpoint wr_run (sched : list (option nat)) (s : wr_state) : option wr_state :=
  match sched with
  | [] => Some s
  | who :: sched => match w_step who s with Some s => wr_run sched s | None => None end
  end.
End writers.

(** The state after the loop of csv_writing.go:131-133, where [h] is the heap after
    SplitNView: a goroutine that has run before the last one was started could as
    well have run later. With fewer dataframes than writers dfs[i] panics, which is
    covered by [to_csvs]. [nw] is the number of different writers. *)
Definition w_init (n nw : nat) (h : heap) : wr_state :=
  WrState (replicate n GStart) (replicate nw ([], 0)) (replicate n false) n None false h.
