(** Model of the thread pool and of parallel_foreach,
    include/z5/util/threadpool.hxx, as a transition system.  Critical sections of
    queue_mutex are single steps; tasks are sequences of atomic accesses to memory
    that the threads share. *)
From Verif Require Import M_Base.

(** ParallelOptions::actualNumThreads, include/z5/util/threadpool.hxx:92-104; [hw] is
    std::thread::hardware_concurrency().  Simplified: NIFTY_NO_PARALLELISM is not
    defined; results are below 2^31. *)
Definition actual_threads (hw : N) (n : Z) : N :=
  if (0 <=? n)%Z then Z.to_N n else if (n =? -2)%Z then hw / 2 else hw.

Section Pool.
(** [M]: shared memory (files, output array); [B]: the per-thread state a task may
    use (buffers[tId] in include/z5/multiarray/array_access.hxx:38-41). *)
Variables M B : Type.

(** Code run by a thread: finished, or an atomic access to the shared memory
    followed by the rest of the code. *)
Inductive prog :=
| Ret (o : outcome B)
| Act (f : M -> M * prog).

(** Uninterrupted execution. *)
Fixpoint run (p : prog) (m : M) : M * outcome B :=
  match p with
  | Ret o => (m, o)
  | Act f => let (m', p') := f m in run p' m'
  end.

(** Sequencing; exceptions end the code. *)
Fixpoint pbind (p : prog) (k : B -> prog) : prog :=
  match p with
  | Ret (Ok b) => k b
  | Ret (Throw e) => Ret (Throw e)
  | Ret UB => Ret UB
  | Act f => Act (fun m => let (m', p') := f m in (m', pbind p' k))
  end.

(** A worker thread, include/z5/util/threadpool.hxx:212-252: about to take
    queue_mutex and evaluate the wait predicate (line 220); sleeping on
    worker_condition; running task [k] (line 234); about to update the counters
    (lines 237-241); returned (line 228). *)
Inductive wstate :=
| WIdle (b : B)
| WSleep (b : B)
| WRun (k : nat) (p : prog)
| WFin (b : B)
| WExit.

(** ThreadPool members, include/z5/util/threadpool.hxx:190-203, shared memory,
    thread states and the futures of the tasks enqueued so far (a task is its
    position in this list).  Ghost: [p_log], the (task, thread id) pairs in the
    order in which the tasks were started.  Simplified: busy and processed do not
    wrap. *)
Record pool := Pool {
  p_mem : M;
  p_queue : list nat;                      (* tasks *)
  p_stop : bool;                           (* stop *)
  p_busy : nat;                            (* busy *)
  p_processed : nat;                       (* processed *)
  p_workers : list wstate;                 (* workers *)
  p_futures : list (option (outcome unit));
  p_log : list (nat * nat)
}.

(** [task k tid b]: the code of task [k] run by thread [tid] whose state is [b];
    [junk]: states that may be left behind by code that throws. *)
Variable task : nat -> nat -> B -> prog.
Variable junk : B -> Prop.

(** ThreadPool::init, include/z5/util/threadpool.hxx:206-254: one thread per initial
    state. *)
Definition pool_init (m : M) (bs : list B) : pool :=
  Pool m [] false 0 0 (map WIdle bs) [] [].

(** Replace the state of thread [tid]. *)
Definition set_worker (p : pool) (tid : nat) (w : wstate) : list wstate := set_nth tid (p_workers p) w.

(** The steps of worker [tid], include/z5/util/threadpool.hxx:212-252; the last one is
    a spurious wake up of the condition variable.  A packaged_task stores the result
    of the call in the future. *)
Inductive worker_step (p : pool) (tid : nat) : pool -> Prop :=
| step_take b k q : nth_error (p_workers p) tid = Some (WIdle b) -> p_stop p = false -> p_queue p = k :: q ->
    worker_step p tid (Pool (p_mem p) q false (S (p_busy p)) (p_processed p)
      (set_worker p tid (WRun k (task k tid b))) (p_futures p) (p_log p ++ [(k, tid)]))
| step_exit b : nth_error (p_workers p) tid = Some (WIdle b) -> p_stop p = true ->
    worker_step p tid (Pool (p_mem p) (p_queue p) true (p_busy p) (p_processed p)
      (set_worker p tid WExit) (p_futures p) (p_log p))
| step_sleep b : nth_error (p_workers p) tid = Some (WIdle b) -> p_stop p = false -> p_queue p = [] ->
    worker_step p tid (Pool (p_mem p) [] false (p_busy p) (p_processed p)
      (set_worker p tid (WSleep b)) (p_futures p) (p_log p))
| step_act k f : nth_error (p_workers p) tid = Some (WRun k (Act f)) ->
    worker_step p tid (Pool (fst (f (p_mem p))) (p_queue p) (p_stop p) (p_busy p) (p_processed p)
      (set_worker p tid (WRun k (snd (f (p_mem p))))) (p_futures p) (p_log p))
| step_return k b : nth_error (p_workers p) tid = Some (WRun k (Ret (Ok b))) ->
    worker_step p tid (Pool (p_mem p) (p_queue p) (p_stop p) (p_busy p) (p_processed p)
      (set_worker p tid (WFin b)) (set_nth k (p_futures p) (Some (Ok tt))) (p_log p))
| step_throw k e b : nth_error (p_workers p) tid = Some (WRun k (Ret (Throw e))) -> junk b ->
    worker_step p tid (Pool (p_mem p) (p_queue p) (p_stop p) (p_busy p) (p_processed p)
      (set_worker p tid (WFin b)) (set_nth k (p_futures p) (Some (Throw e))) (p_log p))
| step_fin b : nth_error (p_workers p) tid = Some (WFin b) ->
    worker_step p tid (Pool (p_mem p) (p_queue p) (p_stop p) (pred (p_busy p)) (S (p_processed p))
      (set_worker p tid (WIdle b)) (p_futures p) (p_log p)).

(** A sleeping worker wakes up, see [worker_step]. *)
Definition wake (p : pool) (tid : nat) (b : B) : pool :=
  Pool (p_mem p) (p_queue p) (p_stop p) (p_busy p) (p_processed p)
    (set_worker p tid (WIdle b)) (p_futures p) (p_log p).

(** The critical section of enqueueReturning for a pool with workers,
    include/z5/util/threadpool.hxx:277-289: [None] is the exception on a stopped pool
    (lines 281-282). *)
Definition push (p : pool) : option pool :=
  if p_stop p then None
  else Some (Pool (p_mem p) (p_queue p ++ [length (p_futures p)]) false (p_busy p) (p_processed p)
                  (p_workers p) (p_futures p ++ [None]) (p_log p)).

(** worker_condition.notify_one(), include/z5/util/threadpool.hxx:291: wakes one of the
    sleeping workers, if there is one. *)
Inductive notify_one (p : pool) : pool -> Prop :=
| notify_some tid b : nth_error (p_workers p) tid = Some (WSleep b) -> notify_one p (wake p tid b)
| notify_none : (forall tid b, nth_error (p_workers p) tid <> Some (WSleep b)) -> notify_one p p.

(** worker_condition.notify_all(), include/z5/util/threadpool.hxx:262. *)
Definition notify_all (p : pool) : pool :=
  Pool (p_mem p) (p_queue p) (p_stop p) (p_busy p) (p_processed p)
    (map (fun w => match w with WSleep b => WIdle b | _ => w end) (p_workers p))
    (p_futures p) (p_log p).

(** stop = true, include/z5/util/threadpool.hxx:258-261. *)
Definition set_stop (p : pool) : pool :=
  Pool (p_mem p) (p_queue p) true (p_busy p) (p_processed p) (p_workers p) (p_futures p) (p_log p).

(** The pool with an arbitrary client: its threads take steps, wake up spuriously,
    and any thread enqueues, notifies or stops at any time. *)
Inductive pool_step (p : pool) : pool -> Prop :=
| any_worker tid p' : worker_step p tid p' -> pool_step p p'
| any_wake tid b : nth_error (p_workers p) tid = Some (WSleep b) -> pool_step p (wake p tid b)
| any_push p' : push p = Some p' -> pool_step p p'
| any_notify p' : notify_one p p' -> pool_step p p'
| any_notify_all : pool_step p (notify_all p)
| any_stop : pool_step p (set_stop p).

(** waitFinished, include/z5/util/threadpool.hxx:172-176: returns when this holds. *)
Definition finished (p : pool) : bool :=
  match p_queue p with [] => (p_busy p =? 0)%nat | _ => false end.

(** ** parallel_foreach *)

(** The calling thread: parallel_foreach_impl, include/z5/util/threadpool.hxx:343-378
    (enqueue task k; the notification that follows it), getFutures (lines 321-338,
    waiting for future k with the first exception so far), and ~ThreadPool (lines
    256-265). *)
Inductive caller :=
| CEnqueue (k : nat)
| CNotify (k : nat)
| CWait (k : nat) (exc : option error)
| CStop (exc : option error)
| CNotifyAll (exc : option error)
| CJoin (exc : option error)
| CReturn (exc : option error)
| CRejected.                              (* enqueue on stopped ThreadPool *)

(** firstException, include/z5/util/threadpool.hxx:326-333. *)
Definition keep_first (exc : option error) (o : outcome unit) : option error :=
  match exc, o with
  | None, Throw e => Some e
  | _, _ => exc
  end.

(** A step of the caller; [m] tasks in total. *)
Inductive caller_step (m : nat) (p : pool) : caller -> pool -> caller -> Prop :=
| c_push k p' : (k < m)%nat -> push p = Some p' -> caller_step m p (CEnqueue k) p' (CNotify (S k))
| c_reject k : (k < m)%nat -> push p = None -> caller_step m p (CEnqueue k) p CRejected
| c_notify k p' : notify_one p p' -> caller_step m p (CNotify k) p' (CEnqueue k)
| c_enqueued k : (m <= k)%nat -> caller_step m p (CEnqueue k) p (CWait 0 None)
| c_get k exc o : (k < m)%nat -> nth_error (p_futures p) k = Some (Some o) ->
    caller_step m p (CWait k exc) p (CWait (S k) (keep_first exc o))
| c_got k exc : (m <= k)%nat -> caller_step m p (CWait k exc) p (CStop exc)
| c_stop exc : caller_step m p (CStop exc) (set_stop p) (CNotifyAll exc)
| c_notify_all exc : caller_step m p (CNotifyAll exc) (notify_all p) (CJoin exc)
| c_join exc : (forall w, In w (p_workers p) -> w = WExit) ->
    caller_step m p (CJoin exc) p (CReturn exc).

(** The whole system; [real_step] leaves out spurious wake ups. *)
Inductive real_step (m : nat) : pool * caller -> pool * caller -> Prop :=
| s_worker p c tid p' : worker_step p tid p' -> real_step m (p, c) (p', c)
| s_caller p c p' c' : caller_step m p c p' c' -> real_step m (p, c) (p', c').
Inductive foreach_step (m : nat) : pool * caller -> pool * caller -> Prop :=
| s_real s s' : real_step m s s' -> foreach_step m s s'
| s_wake p c tid b : nth_error (p_workers p) tid = Some (WSleep b) ->
    foreach_step m (p, c) (wake p tid b, c).
End Pool.
Arguments Ret {M B} o.
Arguments Act {M B} f.
Arguments WIdle {M B} b.
Arguments WSleep {M B} b.
Arguments WRun {M B} k p.
Arguments WFin {M B} b.
Arguments WExit {M B}.


(** The tasks of parallel_foreach_impl for random access iterators,
    include/z5/util/threadpool.hxx:351-376; [chunk] is chunkedWorkPerThread.  The loop
    ends after at most as many rounds as there are items (lines 353-376), [fuel]. *)
Fixpoint batches {A} (fuel : nat) (chunk : N) (items : list A) : list (list A) :=
  match fuel with
  | O => []
  | S fuel' =>
      match items with
      | [] => []
      | _ =>
          let lc := N.min (lenN items) chunk in
          firstn (N.to_nat lc) items :: batches fuel' chunk (skipn (N.to_nat lc) items)
      end
  end.

(** chunkedWorkPerThread, include/z5/util/threadpool.hxx:354; [estimate] is the value
    of int(workPerThread / 3.0f + 0.5f), an arbitrary integer here (the rounding of
    float does not matter). *)
Definition chunked_work (estimate : Z) : N := Z.to_N (Z.max estimate 1).

(** The tasks for input iterators, include/z5/util/threadpool.hxx:445-459. *)
Definition singletons {A} (items : list A) : list (list A) := map (fun i => [i]) items.

(** The function handed to enqueue, include/z5/util/threadpool.hxx:362-367: the items
    of the batch in order; f(id, item) as code on the state of the thread. *)
Fixpoint batch_prog {M B A} (f : nat -> A -> B -> prog M B) (tid : nat) (items : list A) (b : B) : prog M B :=
  match items with
  | [] => Ret (Ok b)
  | i :: r => pbind (f tid i b) (batch_prog f tid r)
  end.

(** parallel_foreach_single_thread, include/z5/util/threadpool.hxx:465-479: all items
    with thread id 0 in the calling thread; also the single threaded loops of
    include/z5/multiarray/array_access.hxx:26-30,54-58. *)
Definition foreach_sequential {M B A} (f : nat -> A -> B -> prog M B) (items : list A) (b : B) : prog M B :=
  batch_prog f 0 items b.

(** The exception that leaves getFutures, include/z5/util/threadpool.hxx:335-337. *)
Definition thrown (exc : option error) : outcome unit :=
  match exc with None => Ok tt | Some e => Throw e end.
(** Forgetting the thread state. *)
Definition ended {B} (o : outcome B) : outcome unit :=
  match o with Ok _ => Ok tt | Throw e => Throw e | UB => UB end.

(** The states a system can reach. *)
Inductive reach {X} (R : X -> X -> Prop) (s : X) : X -> Prop :=
| reach_refl : reach R s s
| reach_step s' s'' : reach R s s' -> R s' s'' -> reach R s s''.

(** The loop over the units 0..N-1 on [threads] worker threads, started with memory
    [m0] and thread states [b0], can return with memory [m1] and result [r]:
    parallel_foreach, include/z5/util/threadpool.hxx:584-640, as called by
    forEachBuffered and forEachWithState (include/z5/multiarray/array_access.hxx:24-73;
    the indices of the units are a vector, so its iterators are random access). *)
Inductive foreach_run {M B} (threads : N) (estimate : Z) (N : nat) (f : nat -> nat -> B -> prog M B)
    (junk : B -> Prop) (b0 : B) (m0 : M) : M -> outcome unit -> Prop :=
| run_sequential m1 o : threads <= 1 -> run (foreach_sequential f (seq 0 N) b0) m0 = (m1, o) ->
    foreach_run threads estimate N f junk b0 m0 m1 (ended o)
| run_parallel p exc : 1 < threads ->
    reach (foreach_step
             (fun k tid => batch_prog f tid (nth k (batches N (chunked_work estimate) (seq 0 N)) []))
             junk (List.length (batches N (chunked_work estimate) (seq 0 N))))
      (pool_init m0 (repeat b0 (N.to_nat threads)), CEnqueue 0) (p, CReturn exc) ->
    foreach_run threads estimate N f junk b0 m0 (p_mem p) (thrown exc).
