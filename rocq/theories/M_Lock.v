(** Threads of a program that share one dataset object: single chunk calls on a
    sharded dataset are serialised by shardMutex_, sub-array writes are not
    (include/z5/generic/sharded_dataset.hxx:283-298). *)
From Verif Require Import M_Base M_Text M_Key M_Blocking M_View M_Bytes M_Format
  M_Mode M_Shard M_Dataset M_Sharded M_Access M_Pool M_Parallel.

(** A call: it returns without access to the files, runs without the mutex, or runs
    with a lock_guard on the mutex, which is released on every way out. *)
Inductive call_code :=
| Returns (o : outcome unit)
| Unlocked (p : code)
| Locked (p : code).

(** writeInnerBlob, include/z5/generic/sharded_dataset.hxx:286-298, after taking the
    mutex: one access reads the shard object, then it is erased, or truncated and
    written. *)
Definition inner_blob_code (sd : sharded) (ids : shape) (blob : option bytes) : code :=
  plet (shard_id ids (sd_cps sd)) (fun coord =>
  plet (shard_slot ids (sd_cps sd)) (fun slot =>
  plet (shard_handle sd coord) (fun h =>
  pread (ch_key h) (fun f =>
  plet (read_shard_blobs sd (only f) coord) (fun blobs =>
  plet (setN blobs slot (match blob with Some b => b | None => [] end)) (fun blobs' =>
  write_blobs_code sd coord blobs' (Ret (Ok [])))))))).

(** writeChunk, include/z5/generic/sharded_dataset.hxx:53-66, with checkChunk (lines
    300-307). *)
Definition sh_write_chunk_code (sd : sharded) (ids : shape) (data : list cell) (isVarlen : bool)
    : call_code :=
  let d := sd_base sd in
  match (if negb (can_write (d_mode d)) then Throw EInvalidArgument
         else
           let! h := chunk_handle_of d (d_chunks d) ids in
           let! bl := d_blocking d in
           if negb (check_block bl (ch_ids h)) then Throw ERuntime
           else if isVarlen then Throw ERuntime
           else make_chunk_blob sd ids data) with
  | Ok blob => Locked (inner_blob_code sd ids blob)
  | Throw e => Returns (Throw e)
  | UB => Returns UB
  end.

(** removeChunk, include/z5/generic/sharded_dataset.hxx:257-259. *)
Definition sh_remove_chunk_code (sd : sharded) (ids : shape) : call_code :=
  Locked (inner_blob_code sd ids None).

(** writeSubarray with one thread, include/z5/multiarray/array_access.hxx:327-404. *)
Definition sh_write_request_code (sd : sharded) (src : source) (off n : shape) : call_code :=
  match (let! reqs := begin_request (sd_base sd) off n in
         if negb (can_write (d_mode (sd_base sd))) then Throw EInvalidArgument else
         let! cps := chunks_per_shard (sd_shard sd) (d_chunks (sd_base sd)) in
         group_chunks cps reqs) with
  | Ok groups =>
      Unlocked (foreach_sequential (fun _ g => shard_write_unit_code sd src off n g) groups
                  (repeat (d_fill (sd_base sd)) (N.to_nat (prodw (d_chunks (sd_base sd))))))
  | Throw e => Returns (Throw e)
  | UB => Returns UB
  end.

(** ** The threads *)
Section Threads.
(** [C]: the calls the program makes. *)
Context {C : Type}.
Variable code_of : C -> call_code.

(** A thread is between two calls, waits for the mutex, or executes a call. *)
Inductive tstate :=
| TIdle
| TWait (c : C) (p : code)
| TRun (c : C) (locked : bool) (p : code).

(** [y_threads]: for each thread its state and the calls it still has to make; [y_log]
    (ghost): the calls that have returned, in this order, with thread and result. *)
Record system := System {
  y_mem : pmem;
  y_mutex : option nat;
  y_threads : list (tstate * list C);
  y_log : list (nat * C * outcome unit)
}.

(** Steps of thread [t].  Releasing the mutex and returning is one step. *)
Inductive thread_step (y : system) (t : nat) : system -> Prop :=
| th_return c rest o : nth_error (y_threads y) t = Some (TIdle, c :: rest) -> code_of c = Returns o ->
    thread_step y t (System (y_mem y) (y_mutex y) (set_nth t (y_threads y) (TIdle, rest)) (y_log y ++ [(t, c, o)]))
| th_start c rest p : nth_error (y_threads y) t = Some (TIdle, c :: rest) -> code_of c = Unlocked p ->
    thread_step y t (System (y_mem y) (y_mutex y) (set_nth t (y_threads y) (TRun c false p, rest)) (y_log y))
| th_enter c rest p : nth_error (y_threads y) t = Some (TIdle, c :: rest) -> code_of c = Locked p ->
    thread_step y t (System (y_mem y) (y_mutex y) (set_nth t (y_threads y) (TWait c p, rest)) (y_log y))
| th_lock c rest p : nth_error (y_threads y) t = Some (TWait c p, rest) -> y_mutex y = None ->
    thread_step y t (System (y_mem y) (Some t) (set_nth t (y_threads y) (TRun c true p, rest)) (y_log y))
| th_act c rest l f : nth_error (y_threads y) t = Some (TRun c l (Act f), rest) ->
    thread_step y t (System (fst (f (y_mem y))) (y_mutex y)
      (set_nth t (y_threads y) (TRun c l (snd (f (y_mem y))), rest)) (y_log y))
| th_end c rest l o : nth_error (y_threads y) t = Some (TRun c l (Ret o), rest) ->
    thread_step y t (System (y_mem y) (if l then None else y_mutex y)
      (set_nth t (y_threads y) (TIdle, rest)) (y_log y ++ [(t, c, ended o)])).

(** Any thread may make the next step. *)
Definition system_step (y y' : system) : Prop := exists t, thread_step y t y'.

(** One thread per list of calls. *)
Definition system_init (st : store) (calls : list (list C)) : system :=
  System (st, fun _ => []) None (map (fun l => (TIdle, l)) calls) [].
End Threads.
