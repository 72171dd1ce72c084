(** removeTrivialChunks and removeDataset of sharded datasets,
    include/z5/util/functions.hxx:32-84: the threads read shards without shardMutex_ and
    remove inner chunks with it (include/z5/generic/sharded_dataset.hxx:283-298). *)
From Verif Require Import M_Base M_Text M_Key M_Blocking M_View M_Bytes M_Format
  M_Mode M_Shard M_Dataset M_Sharded M_Access M_Pool M_Parallel M_ForEach M_Functions M_Lock.

(** Code of a thread: finished, an atomic access to the files, locking and unlocking of
    shardMutex_. *)
Inductive lcode :=
| LRet (o : outcome unit)
| LAct (f : pmem -> pmem * lcode)
| LLock (p : lcode)
| LUnlock (p : lcode).

(** Computation on a thread's own data. *)
Definition llift {A} (o : outcome A) (k : A -> lcode) : lcode :=
  match o with
  | Ok a => k a
  | Throw e => LRet (Throw e)
  | UB => LRet UB
  end.
(** Reading a file: the contents at that moment. *)
Definition lread (key : string) (k : option bytes -> lcode) : lcode := LAct (fun m => (m, k (fst m key))).
(** Sequencing; exceptions end the code. *)
Fixpoint lseq (p k : lcode) : lcode :=
  match p with
  | LRet (Ok _) => k
  | LRet o => LRet o
  | LAct f => LAct (fun m => let (m', p') := f m in (m', lseq p' k))
  | LLock p' => LLock (lseq p' k)
  | LUnlock p' => LUnlock (lseq p' k)
  end.

(** Code in the scope of a lock_guard, which unlocks on every way out. *)
Fixpoint guarded (p : code) : lcode :=
  match p with
  | Ret o => LUnlock (LRet (ended o))
  | Act f => LAct (fun m => let (m', p') := f m in (m', guarded p'))
  end.
(** removeChunk, include/z5/generic/sharded_dataset.hxx:257-259 and 286-298. *)
Definition locked_remove (sd : sharded) (c : shape) : lcode := LLock (guarded (inner_blob_code sd c None)).

(** The callback of removeTrivialChunks, include/z5/util/functions.hxx:43-58, for a
    sharded dataset; chunkExists, checkVarlenChunk and readChunk as in [load_chunk]. *)
Definition sh_trivial_visit (sd : sharded) (value : option cell) (c : shape) : lcode :=
  let cc := sharded_calls sd in
  llift (cc_key cc c) (fun key =>
  lread key (fun f1 =>
  llift (cc_exists cc f1 c) (fun ex =>
  if negb ex then LRet (Ok tt)
  else
    llift (cc_varlen cc f1 c) (fun vl =>
    let (size, data) := prepare_read_buffer (cc_data cc) vl in
    lread key (fun f2 =>
    llift (cc_read cc f2 c data) (fun r =>
    if trivial (d_type (sd_base sd)) value (firstn (N.to_nat size) (snd r)) then locked_remove sd c else LRet (Ok tt))))))).

(** The callback of removeDataset, include/z5/util/functions.hxx:73-80. *)
Definition sh_drop_visit (sd : sharded) (c : shape) : lcode :=
  let cc := sharded_calls sd in
  llift (cc_key cc c) (fun key =>
  lread key (fun f =>
  llift (cc_exists cc f c) (fun ex => if negb ex then LRet (Ok tt) else locked_remove sd c))).

(** The function handed to enqueue, see [batch_prog]; [visit i] is the callback for the
    chunk with number [i]. *)
Definition lbatch (visit : nat -> lcode) (items : list nat) : lcode :=
  fold_right (fun i k => lseq (visit i) k) (LRet (Ok tt)) items.

(** Worker threads, the tasks in the queue with their numbers, and the futures.  [M_Pool]
    models how the queue is filled and how workers sleep and wake up; here a worker that
    has nothing to do takes the next task, and the queue is filled at the beginning. *)
Record lsystem := LSystem {
  l_mem : pmem;
  l_mutex : option nat;
  l_queue : list (nat * list nat);
  l_workers : list (option (nat * lcode));
  l_futures : nat -> option (outcome unit)
}.

Section Loop.
Variable visit : nat -> lcode.

(** The steps of worker [t], include/z5/util/threadpool.hxx:212-252. *)
Inductive lstep (y : lsystem) (t : nat) : lsystem -> Prop :=
| l_take k b q : nth_error (l_workers y) t = Some None -> l_queue y = (k, b) :: q ->
    lstep y t (LSystem (l_mem y) (l_mutex y) q (set_nth t (l_workers y) (Some (k, lbatch visit b))) (l_futures y))
| l_act k f : nth_error (l_workers y) t = Some (Some (k, LAct f)) ->
    lstep y t (LSystem (fst (f (l_mem y))) (l_mutex y) (l_queue y)
      (set_nth t (l_workers y) (Some (k, snd (f (l_mem y))))) (l_futures y))
| l_lock k p : nth_error (l_workers y) t = Some (Some (k, LLock p)) -> l_mutex y = None ->
    lstep y t (LSystem (l_mem y) (Some t) (l_queue y) (set_nth t (l_workers y) (Some (k, p))) (l_futures y))
| l_unlock k p : nth_error (l_workers y) t = Some (Some (k, LUnlock p)) ->
    lstep y t (LSystem (l_mem y) None (l_queue y) (set_nth t (l_workers y) (Some (k, p))) (l_futures y))
| l_finish k o : nth_error (l_workers y) t = Some (Some (k, LRet o)) -> o <> UB ->
    lstep y t (LSystem (l_mem y) (l_mutex y) (l_queue y) (set_nth t (l_workers y) None)
      (fun j => if (j =? k)%nat then Some o else l_futures y j)).
(** Any worker may make the next step. *)
Definition any_lstep (y y' : lsystem) : Prop := exists t, lstep y t y'.

(** One task per batch. *)
Definition linit (st : store) (threads : nat) (tasks : list (list nat)) : lsystem :=
  LSystem (st, fun _ => []) None (combine (seq 0 (List.length tasks)) tasks) (repeat None threads) (fun _ => None).
(** All tasks are done. *)
Definition lfinal (y : lsystem) : Prop := l_queue y = [] /\ Forall (fun w => w = None) (l_workers y).
(** getFutures, include/z5/util/threadpool.hxx:321-338. *)
Definition lresult (n : nat) (y : lsystem) : outcome unit :=
  thrown (fold_left (fun exc k => match l_futures y k with Some o => keep_first exc o | None => exc end) (seq 0 n) None).
End Loop.

(** parallel_foreach over the chunks 0..n-1, include/z5/util/threadpool.hxx:584-640: the
    number of workers and the tasks.  With one thread or less the caller does everything
    itself, here a single worker with a single task. *)
Definition loop_threads (threads : N) : nat := if threads <=? 1 then 1%nat else N.to_nat threads.
(** See [loop_threads]. *)
Definition loop_tasks (threads : N) (est : Z) (n : nat) : list (list nat) :=
  if threads <=? 1 then [seq 0 n] else batches n (chunked_work est) (seq 0 n).

(** A step of parallel_for_each_chunk, include/z5/util/for_each.hxx:13-21: the numbers
    0..n-1 are turned into chunk positions. *)
Inductive shard_step (sd : sharded) (visit : shape -> lcode) (y y' : lsystem) : Prop :=
| shard_step_intro bl : mk_blocking (d_shape (sd_base sd)) (d_chunks (sd_base sd)) = Ok bl ->
    any_lstep (fun i => llift (id_to_coord (b_strides bl) (N.of_nat i)) visit) y y' -> shard_step sd visit y y'.
(** parallel_for_each_chunk, started with the files [st], can reach the state [y]. *)
Inductive shard_loop (sd : sharded) (threads : N) (est : Z) (visit : shape -> lcode) (st : store) (y : lsystem) : Prop :=
| shard_loop_intro bl : mk_blocking (d_shape (sd_base sd)) (d_chunks (sd_base sd)) = Ok bl ->
    reach (shard_step sd visit) (linit st (loop_threads threads) (loop_tasks threads est (N.to_nat (b_number bl)))) y ->
    shard_loop sd threads est visit st y.
(** The number of tasks. *)
Definition loop_count (sd : sharded) (threads : N) (est : Z) : nat :=
  match mk_blocking (d_shape (sd_base sd)) (d_chunks (sd_base sd)) with
  | Ok bl => List.length (loop_tasks threads est (N.to_nat (b_number bl)))
  | _ => 0%nat
  end.

(** removeTrivialChunks, include/z5/util/functions.hxx:32-60. *)
Inductive sh_remove_trivial (sd : sharded) (hw : N) (nThreads est : Z) (value : option cell) (st st1 : store)
    : outcome unit -> Prop :=
| sh_trivial_refused : can_write (d_mode (sd_base sd)) = false -> st1 = st ->
    sh_remove_trivial sd hw nThreads est value st st1 (Throw EInvalidArgument)
| sh_trivial_done y : can_write (d_mode (sd_base sd)) = true ->
    shard_loop sd (actual_threads hw nThreads) est (sh_trivial_visit sd value) st y -> lfinal y -> st1 = fst (l_mem y) ->
    sh_remove_trivial sd hw nThreads est value st st1 (lresult (loop_count sd (actual_threads hw nThreads) est) y).

(** removeDataset, include/z5/util/functions.hxx:64-84, see [remove_dataset]. *)
Inductive sh_remove_dataset (sd : sharded) (hw : N) (nThreads est : Z) (st : store) : store -> outcome unit -> Prop :=
| sh_removal_refused : can_write (d_mode (sd_base sd)) = false ->
    sh_remove_dataset sd hw nThreads est st st (Throw EInvalidArgument)
| sh_removal_failed y e : can_write (d_mode (sd_base sd)) = true ->
    shard_loop sd (actual_threads hw nThreads) est (sh_drop_visit sd) st y -> lfinal y ->
    lresult (loop_count sd (actual_threads hw nThreads) est) y = Throw e ->
    sh_remove_dataset sd hw nThreads est st (fst (l_mem y)) (Throw e)
| sh_removal_done y : can_write (d_mode (sd_base sd)) = true ->
    shard_loop sd (actual_threads hw nThreads) est (sh_drop_visit sd) st y -> lfinal y ->
    lresult (loop_count sd (actual_threads hw nThreads) est) y = Ok tt ->
    sh_remove_dataset sd hw nThreads est st (fun _ => None) (Ok tt).
