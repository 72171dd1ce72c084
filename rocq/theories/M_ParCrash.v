(** The process dies during a write that runs on several threads. *)
From Verif Require Import M_Base M_Text M_Key M_Blocking M_View M_Bytes M_Format
  M_Mode M_Shard M_Dataset M_Sharded M_Access M_Pool M_Parallel M_Crash.

(** All threads stop at the same moment.  Each of them may be inside of an access that
    appends to a file, which has then got some of the bytes, see [crash_torn]
    (std::ofstream::write and close, include/z5/filesystem/store.hxx:39-49). *)
Inductive torn_threads : list (wstate pmem (list cell)) -> pmem -> pmem -> Prop :=
| torn_end m : torn_threads [] m m
| torn_whole w ws m m' : torn_threads ws m m' -> torn_threads (w :: ws) m m'
| torn_inside k f ws m m' key a b i : fst m key = Some a -> fst (fst (f m)) key = Some (a ++ b)%list ->
    torn_threads ws (set_key (fst m) key (Some (a ++ firstn i b)%list), snd m) m' ->
    torn_threads (WRun k (Act f) :: ws) m m'.

(** A loop over units is stopped and leaves the memory [m'], see [foreach_run]
    (include/z5/multiarray/array_access.hxx:24-73, include/z5/util/threadpool.hxx:584-640). *)
Inductive foreach_crash (threads : N) (estimate : Z) (cnt : nat) (f : nat -> nat -> list cell -> code)
    (junk : list cell -> Prop) (b0 : list cell) (m0 : pmem) : pmem -> Prop :=
| crash_sequential m' : threads <= 1 -> crash (foreach_sequential f (seq 0 cnt) b0) m0 m' ->
    foreach_crash threads estimate cnt f junk b0 m0 m'
| crash_parallel p c m' : 1 < threads ->
    reach (foreach_step
             (fun k tid => batch_prog f tid (nth k (batches cnt (chunked_work estimate) (seq 0 cnt)) []))
             junk (List.length (batches cnt (chunked_work estimate) (seq 0 cnt))))
      (pool_init m0 (repeat b0 (N.to_nat threads)), CEnqueue 0) (p, c) ->
    torn_threads (p_workers p) (p_mem p) m' ->
    foreach_crash threads estimate cnt f junk b0 m0 m'.

(** writeSubarray / writeScalar with [threads] threads is stopped and leaves the files
    [st'], see [write_run] (include/z5/multiarray/array_access.hxx:253-288). *)
Inductive write_stopped (d : dataset) (threads : N) (estimate : Z) (src : source) (off n : shape)
    (st : store) : store -> Prop :=
| write_stopped_reqs reqs m' : begin_request d off n = Ok reqs ->
    foreach_crash threads estimate (List.length reqs)
      (fun _ i => write_unit_code d src off n (nth i reqs []))
      (left_over (t_width (d_type d)))
      (repeat (d_fill d) (N.to_nat (prodw (d_chunks d)))) (st, fun _ => []) m' ->
    write_stopped d threads estimate src off n st (fst m').

(** The same for a sharded dataset, see [sh_write_run]
    (include/z5/multiarray/array_access.hxx:327-404). *)
Inductive sh_write_stopped (sd : sharded) (threads : N) (estimate : Z) (src : source) (off n : shape)
    (st : store) : store -> Prop :=
| sh_write_stopped_groups groups m' :
    (let! reqs := begin_request (sd_base sd) off n in
     if negb (can_write (d_mode (sd_base sd))) then Throw EInvalidArgument else
     let! cps := chunks_per_shard (sd_shard sd) (d_chunks (sd_base sd)) in
     group_chunks cps reqs) = Ok groups ->
    foreach_crash threads estimate (List.length groups)
      (fun _ i => shard_write_unit_code sd src off n (nth i groups ([], [])))
      (left_over (t_width (d_type (sd_base sd))))
      (repeat (d_fill (sd_base sd)) (N.to_nat (prodw (d_chunks (sd_base sd))))) (st, fun _ => []) m' ->
    sh_write_stopped sd threads estimate src off n st (fst m').
