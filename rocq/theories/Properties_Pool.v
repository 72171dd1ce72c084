(** Properties C37-C39: the thread pool and parallel_foreach. *)
From Verif Require Import M_Base M_Pool S_Pool P_Base P_Pool P_Foreach P_PoolAny.
Import List ListNotations.
Local Open Scope nat_scope.

(** ** C39: the pool with any client *)

(** C39: in every execution tasks are started in the order in which they were
    enqueued and none is started twice: the started tasks followed by the queued
    ones are all tasks, in order. *)
Theorem C39_at_most_once M B (task : nat -> nat -> B -> prog M B) junk m bs p :
  reach (pool_step task junk) (pool_init m bs) p ->
  map fst (p_log p) ++ p_queue p = seq 0 (length (p_futures p)) /\
  NoDup (map fst (p_log p)) /\ NoDup (p_queue p) /\
  (forall k tid, In (k, tid) (p_log p) -> tid < length bs /\ ~ In k (p_queue p)).
Proof.
  intros Hr. pose proof (pool_ok_reach Hr) as P. destruct (seq_split (po_queue P)) as (H1 & H2 & _).
  split; [symmetry; exact (po_queue P)|]. split; [exact H1|]. split; [exact H2|].
  intros k tid Hk. split; [exact (po_log P Hk)|exact (log_queue P Hk)].
Qed.
Print Assumptions C39_at_most_once.

(** C39: a task is run by one worker at a time; no more tasks run than there are
    workers; the busy counter counts them (and those about to be reported). *)
Theorem C39_workers M B (task : nat -> nat -> B -> prog M B) junk m bs p :
  reach (pool_step task junk) (pool_init m bs) p ->
  length (p_workers p) = length bs /\
  (forall tid tid' k q q', nth_error (p_workers p) tid = Some (WRun k q) ->
     nth_error (p_workers p) tid' = Some (WRun k q') -> tid = tid') /\
  length (filter is_running (p_workers p)) <= p_busy p <= length bs.
Proof. exact (@workers_bound M B task junk m bs p). Qed.
Print Assumptions C39_workers.

(** C39: a worker returns only after the pool was stopped; once it is stopped it
    stays so, nothing can be enqueued and no further task is started. *)
Theorem C39_stop M B (task : nat -> nat -> B -> prog M B) junk m bs p :
  reach (pool_step task junk) (pool_init m bs) p ->
  ((exists tid, nth_error (p_workers p) tid = Some WExit) -> p_stop p = true) /\
  (p_stop p = true -> push p = None /\
     forall p', reach (pool_step task junk) p p' ->
       p_stop p' = true /\ p_log p' = p_log p /\ length (p_futures p') = length (p_futures p)).
Proof. exact (@stop_final M B task junk m bs p). Qed.
Print Assumptions C39_stop.

(** C39: no task is lost: a task without result is queued or being run; so when
    all results are there, or when waitFinished returns, every task was executed
    exactly once. *)
Theorem C39_exactly_once M B (task : nat -> nat -> B -> prog M B) junk m bs p :
  reach (pool_step task junk) (pool_init m bs) p ->
  (forall k, k < length (p_futures p) ->
     (exists o, nth_error (p_futures p) k = Some (Some o)) \/ In k (p_queue p) \/
     exists tid q, nth_error (p_workers p) tid = Some (WRun k q)) /\
  ((forall k, k < length (p_futures p) -> exists o, nth_error (p_futures p) k = Some (Some o)) ->
     map fst (p_log p) = seq 0 (length (p_futures p))) /\
  (finished p = true ->
     map fst (p_log p) = seq 0 (length (p_futures p)) /\
     forall k, k < length (p_futures p) -> exists o, nth_error (p_futures p) k = Some (Some o)).
Proof. exact (@all_executed M B task junk m bs p). Qed.
Print Assumptions C39_exactly_once.

(** ** C37: parallel_foreach *)

(** C37: for every number of items and any value of the work estimate the batches
    are non-empty and partition the items, in order. *)
Theorem C37_batches_partition A (items : list A) estimate :
  concat (batches (length items) (chunked_work estimate) items) = items /\
  (forall b, In b (batches (length items) (chunked_work estimate) items) -> b <> []) /\
  concat (singletons items) = items.
Proof.
  split; [apply batches_concat; [apply chunked_work_pos|lia]|]. split.
  - intros b. apply batches_nonempty. apply chunked_work_pos.
  - unfold singletons. induction items as [|x l IH]; cbn; [reflexivity|now f_equal].
Qed.
Print Assumptions C37_batches_partition.

(** C37: whatever the tasks do, when parallel_foreach returns each task (batch) was
    started exactly once, by a thread with an id below the number of threads; it
    never fails with "enqueue on stopped ThreadPool". *)
Theorem C37_each_batch_once M B (task : nat -> nat -> B -> prog M B) junk cnt m bs p c :
  reach (foreach_step task junk cnt) (pool_init m bs, CEnqueue 0) (p, c) ->
  c <> CRejected /\
  forall exc, c = CReturn exc ->
    map fst (p_log p) = seq 0 cnt /\ (forall k tid, In (k, tid) (p_log p) -> tid < length bs).
Proof.
  intros Hr. destruct (foreach_any eq_refl Hr) as [H1 H2]. split; [exact H1|].
  intros exc E. destruct (H2 exc E) as (A & B' & _). auto.
Qed.
Print Assumptions C37_each_batch_once.

(** C37: every item is processed exactly once, for every number of threads and
    every schedule, when no item fails. *)
Theorem C37_each_item_once B (junk : B -> Prop) threads estimate cnt b0 calls r :
  foreach_run threads estimate cnt (count_item (fun _ => None)) junk b0 (fun _ => 0) calls r ->
  r = Ok tt /\ forall i, calls i = if i <? cnt then 1 else 0.
Proof. exact (@count_once B junk threads estimate cnt b0 calls r). Qed.
Print Assumptions C37_each_item_once.

(** ** C38: exceptions *)

(** C38: whatever the tasks do, parallel_foreach returns only after every task has
    ended, and throws the exception of the first failing task in task order; nothing
    is thrown if none failed. *)
Theorem C38_first_exception M B (task : nat -> nat -> B -> prog M B) junk cnt m bs p exc :
  reach (foreach_step task junk cnt) (pool_init m bs, CEnqueue 0) (p, CReturn exc) ->
  (forall k, k < cnt -> exists o, nth_error (p_futures p) k = Some (Some o)) /\
  exc = first_error (map (future_of p) (seq 0 cnt)).
Proof.
  intros Hr. destruct (foreach_any eq_refl Hr) as [_ H]. destruct (H exc eq_refl) as (_ & _ & A & B'). auto.
Qed.
Print Assumptions C38_first_exception.

(** C38: for items that do not interfere, for every number of threads and every
    schedule: the exception is that of the first failing item; an item is processed
    with its effects unless an earlier item of its batch failed, in which case it is
    not processed at all; nothing else changes.  With several threads no batch has more
    items than the work estimate. *)
Theorem C38_items M B loc V (get : M -> loc -> V) (f : nat -> nat -> B -> prog M B) (junk I : B -> Prop)
    cnt F R m0 fin res :
  tasks_ok get cnt (fun i tid => f tid i) I F R m0 fin res -> (forall b, junk b -> I b) ->
  forall threads estimate b0 m1 r, I b0 -> foreach_run threads estimate cnt f junk b0 m0 m1 r ->
  r = thrown (first_error (map res (seq 0 cnt))) /\
  (forall l, (forall i, i < cnt -> ~ F i l) -> get m1 l = get m0 l) /\
  exists bss, concat bss = seq 0 cnt /\
    ((1 < threads)%N -> forall bs, In bs bss -> (Z.of_nat (length bs) <= Z.max estimate 1)%Z) /\
    (forall bs i, In bs bss -> In i (started res bs) -> agree get (F i) m1 (fin i)) /\
    (forall bs i, In bs bss -> In i bs -> ~ In i (started res bs) -> agree get (F i) m1 m0).
Proof. intros H J threads estimate b0 m1 r Hb Hr. exact (foreach_run_result H J Hb Hr). Qed.
Print Assumptions C38_items.

(** C38: counting calls for any assignment of failures to items. *)
Theorem C38_calls B (junk : B -> Prop) fail threads estimate cnt b0 calls r :
  foreach_run threads estimate cnt (count_item fail) junk b0 (fun _ => 0) calls r ->
  r = thrown (first_error (map (fun i => thrown (fail i)) (seq 0 cnt))) /\
  exists bss, concat bss = seq 0 cnt /\
    ((1 < threads)%N -> forall bs, In bs bss -> (Z.of_nat (length bs) <= Z.max estimate 1)%Z) /\
    (forall bs, In bs bss -> (forall i, In i bs -> fail i = None) -> forall i, In i bs -> calls i = 1) /\
    (forall i, calls i <= 1).
Proof. exact (@count_failures B junk fail threads estimate cnt b0 calls r). Qed.
Print Assumptions C38_calls.

(** C36-C38: there is no deadlock and no livelock: every execution (with finitely
    many spurious wake ups) reaches the end of the loop. *)
Theorem C38_progress M B loc V (get : M -> loc -> V) (task : nat -> nat -> B -> prog M B) (junk I : B -> Prop)
    cnt F R m0 fin res :
  tasks_ok get cnt task I F R m0 fin res -> (forall b, junk b -> I b) -> (exists b, junk b) ->
  forall bs p c, bs <> [] -> Forall I bs ->
  reach (foreach_step task junk cnt) (pool_init m0 bs, CEnqueue 0) (p, c) ->
  ((exists exc, c = CReturn exc) \/ exists s', real_step task junk cnt (p, c) s') /\
  Acc (fun s' s => real_step task junk cnt s s') (p, c).
Proof.
  intros H J X bs p c Hb HI Hr. assert (L : 0 < length bs) by (destruct bs; [congruence|cbn; lia]). split.
  - exact (foreach_progress H J L HI eq_refl X Hr).
  - exact (foreach_terminates H J L HI eq_refl Hr).
Qed.
Print Assumptions C38_progress.

(** Two threads, five items, the third item fails: some run ends, and it throws the
    third item's exception. *)
Example C38_case : exists calls,
  foreach_run 2 1 5 (count_item (fun i => if i =? 2 then Some ERuntime else None)) (fun _ : unit => True) tt
    (fun _ => 0) calls (Throw ERuntime).
Proof.
  destruct (foreach_run_exists (count_ok (fun _ : unit => True) 5 (fun i => if i =? 2 then Some ERuntime else None))
              (junk := fun _ => True) (fun _ H => H) (ex_intro _ tt Logic.I) 2 1 (b0 := tt) Logic.I) as (calls & r & H).
  exists calls. pose proof (C38_calls H) as [E _]. cbn in E. now subst r.
Qed.
Example C37_case : batches 7 (chunked_work 3) [10; 11; 12; 13; 14; 15; 16] = [[10; 11; 12]; [13; 14; 15]; [16]].
Proof. reflexivity. Qed.
(** Two workers; two tasks are enqueued, worker 1 takes the first, the pool is
    stopped: the second one stays in the queue. *)
Example C39_case : exists p,
  reach (pool_step (fun _ _ b => Ret (Ok b)) (fun _ : unit => True)) (pool_init 0 [tt; tt]) p /\
  p_log p = [(0, 1)] /\ p_queue p = [1] /\ p_stop p = true /\ push p = None.
Proof.
  eexists. split.
  - eapply reach_step; [eapply reach_step; [eapply reach_step; [eapply reach_step; [apply reach_refl|]|]|]|].
    + apply any_push. reflexivity.
    + apply any_push. reflexivity.
    + eapply (any_worker (tid := 1)), step_take; reflexivity.
    + apply any_stop.
  - repeat split.
Qed.
