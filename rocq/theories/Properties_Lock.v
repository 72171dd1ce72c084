(** Property C40: threads that share one sharded dataset object. *)
From Verif Require Import M_Base M_Text M_Key M_Blocking M_View M_Bytes M_Format M_Mode M_Shard M_Dataset M_Sharded
  M_Access M_Pool M_Parallel M_Lock S_Array S_Grid S_Bytes S_Text S_Format S_Shard S_Dataset S_Access S_Sharded S_Lock
  P_Base P_Pool P_Sharded P_ShardedApi P_Lock Properties_Access Properties_Sharded.
Import List ListNotations.
Local Open Scope list_scope.
Local Open Scope N_scope.

(** C40: in every interleaving of the file accesses of any number of threads that
    write and remove single chunks, with any arguments and whatever is stored: the
    calls that have returned have the results they have when executed one after the
    other in the order in which they returned; each thread's calls are in its own
    order; and while no thread holds the mutex the files are those of that sequential
    execution.  When all threads are done the order contains all their calls. *)
Theorem C40_serial sd st0 calls y :
  reach (system_step (chunk_call_code sd)) (system_init st0 calls) y ->
  snd (run_caught (map (run_shard_op sd) (log_calls (y_log y))) st0) = log_results (y_log y) /\
  (forall t cs, nth_error calls t = Some cs -> exists rest, log_of t (y_log y) ++ rest = cs) /\
  (y_mutex y = None -> forall k, fst (y_mem y) k = fst (run_caught (map (run_shard_op sd) (log_calls (y_log y))) st0) k) /\
  (all_returned y -> y_mutex y = None /\ forall t cs, nth_error calls t = Some cs -> log_of t (y_log y) = cs).
Proof. exact (@chunk_calls_serial sd st0 calls y). Qed.
Print Assumptions C40_serial.

(** C40: so no update is lost.  After a history [pre], let threads make valid calls
    concurrently.  All succeed, and afterwards every chunk of the dataset is what the
    last call about it made of it; if only one thread makes calls about a chunk that
    is decided by this thread alone; chunks without calls keep their contents. *)
Theorem C40_no_lost_update sd pre st00 st0 calls y : sharded_ok sd -> can_write (d_mode (sd_base sd)) = true ->
  Forall (fun o => op_ok (sd_base sd) o /\ fixed_op o) pre ->
  Forall (Forall (fun o => op_ok (sd_base sd) o /\ fixed_op o)) calls ->
  (forall c, valid_chunk (d_shape (sd_base sd)) (d_chunks (sd_base sd)) c -> st00 (shard_key sd c) = None) ->
  run_shard_ops sd pre st00 = (st0, Ok tt) ->
  reach (system_step (chunk_call_code sd)) (system_init st0 calls) y -> all_returned y ->
  (forall t c r, In (t, c, r) (y_log y) -> r = Ok tt) /\
  (forall t cs, nth_error calls t = Some cs -> log_of t (y_log y) = cs) /\
  (forall c, valid_chunk (d_shape (sd_base sd)) (d_chunks (sd_base sd)) c ->
     let r := last_result (sd_base sd) (pre ++ log_calls (y_log y)) c None in
     sh_chunk_exists sd (fst (y_mem y)) c = Ok (match r with None => false | Some _ => true end) /\
     (forall vl data, r = Some (vl, data) ->
        forall out, buffer_of (t_width (d_type (sd_base sd))) (prod (d_chunks (sd_base sd))) out ->
        vl = false /\ sh_read_chunk sd (fst (y_mem y)) c out = Ok (false, data)) /\
     (forall t cs, nth_error calls t = Some cs ->
        (forall t' cs' o, t' <> t -> nth_error calls t' = Some cs' -> In o cs' -> op_chunk o <> c) ->
        r = last_result (sd_base sd) (pre ++ cs) c None)).
Proof. exact (@no_lost_update sd pre st00 st0 calls y). Qed.
Print Assumptions C40_no_lost_update.

(** C40: no deadlock; every execution ends with all calls returned. *)
Theorem C40_progress sd st0 calls y :
  reach (system_step (chunk_call_code sd)) (system_init st0 calls) y ->
  (all_returned y \/ exists y', system_step (chunk_call_code sd) y y') /\
  Acc (fun a b => system_step (chunk_call_code sd) b a) y.
Proof. intros H. split; [exact (chunk_calls_progress H)|apply system_terminates]. Qed.
Print Assumptions C40_progress.

(** Two threads, three calls about two chunks of one shard, switching threads after
    each access: the writer of chunk [0; 0] takes the mutex second. *)
Definition ex_calls : list (list chunk_op) :=
  [[OpWrite [0; 0] [[1; 0]; [2; 0]; [3; 0]; [4; 0]]];
   [OpWrite [1; 0] [[5; 0]; [2; 0]; [3; 0]; [4; 0]]; OpRemove [1; 0]]].
Example C40_case : sharded_ok ex_sharded /\ can_write (d_mode (sd_base ex_sharded)) = true /\
  Forall (Forall (fun o => op_ok (sd_base ex_sharded) o /\ fixed_op o)) ex_calls /\
  exists y, reach (system_step (chunk_call_code ex_sharded)) (system_init (fun _ => None) ex_calls) y /\
    all_returned y /\ map (fun e => fst (fst e)) (y_log y) = [1; 0; 1]%nat /\
    sh_chunk_exists ex_sharded (fst (y_mem y)) [0; 0] = Ok true /\
    sh_chunk_exists ex_sharded (fst (y_mem y)) [1; 0] = Ok false.
Proof.
  split; [exact ex_sharded_ok|]. split; [reflexivity|]. split.
  - destruct C27_sharded_case as (_ & H & _). inversion H as [|? ? H1 H']; subst. inversion H' as [|? ? H2 H'']; subst.
    apply Forall_cons; [apply Forall_cons; [exact H1|constructor]|]. apply Forall_cons; [|constructor].
    apply Forall_cons; [exact H2|]. apply Forall_cons; [split; [cbn; lia|exact Logic.I]|constructor].
  - set (sched := [0; 1; 1; 1; 1; 1; 1; 0; 1; 0; 0; 0; 0; 1; 1; 1; 1; 1]%nat).
    destruct (exec (chunk_call_code ex_sharded) (system_init (fun _ => None) ex_calls) sched) as [y|] eqn:E; [|vm_compute in E; discriminate].
    exists y. split; [eapply exec_reach; [apply reach_refl|exact E]|].
    assert (F : match exec (chunk_call_code ex_sharded) (system_init (fun _ => None) ex_calls) sched with
                | Some y => (y_threads y, map (fun e => fst (fst e)) (y_log y),
                             sh_chunk_exists ex_sharded (fst (y_mem y)) [0; 0], sh_chunk_exists ex_sharded (fst (y_mem y)) [1; 0])
                | None => ([], [], UB, UB)
                end = ([(TIdle, []); (TIdle, [])], [1; 0; 1]%nat, Ok true, Ok false)) by (vm_compute; reflexivity).
    rewrite E in F. injection F as F1 F2 F3 F4. split; [unfold all_returned; rewrite F1; repeat constructor|auto].
Qed.

(** Refuted for sub-array writes, which do not take the mutex: a chunk write that
    returned is lost when a sub-array write to another chunk of the same shard runs at
    the same time; both calls return normally. *)
Theorem C40_region_write_refuted :
  exists y, reach (system_step (array_call_code ex_sharded))
      (system_init (fun _ => None)
         [[AWrite [0; 0] [2; 2] (FromScalar [9; 9])]; [AChunk [1; 0] [[5; 0]; [2; 0]; [3; 0]; [4; 0]]]]) y /\
    all_returned y /\ log_results (y_log y) = [Ok tt; Ok tt] /\
    sh_chunk_exists ex_sharded (fst (y_mem y)) [1; 0] = Ok false.
Proof.
  set (init := system_init (fun _ => None)
         [[AWrite [0; 0] [2; 2] (FromScalar [9; 9])]; [AChunk [1; 0] [[5; 0]; [2; 0]; [3; 0]; [4; 0]]]]).
  set (sched := [0; 0; 1; 1; 1; 1; 1; 1; 0; 0; 0]%nat).
  destruct (exec (array_call_code ex_sharded) init sched) as [y|] eqn:E; [|vm_compute in E; discriminate].
  exists y. split; [eapply exec_reach; [apply reach_refl|exact E]|].
  assert (F : match exec (array_call_code ex_sharded) init sched with
              | Some y => (y_threads y, log_results (y_log y), sh_chunk_exists ex_sharded (fst (y_mem y)) [1; 0])
              | None => ([], [], UB)
              end = ([(TIdle, []); (TIdle, [])], [Ok tt; Ok tt], Ok false)) by (vm_compute; reflexivity).
  rewrite E in F. injection F as F1 F2 F3. split; [unfold all_returned; rewrite F1; repeat constructor|auto].
Qed.
Print Assumptions C40_region_write_refuted.

(** Refuted for readers, which do not take the mutex either: while another thread
    writes a chunk, a chunk of the same shard that is stored and not written by anybody
    cannot be read at times. *)
Theorem C40_reader_refuted :
  exists st0, run_shard_ops ex_sharded [OpWrite [0; 0] [[1; 0]; [2; 0]; [3; 0]; [4; 0]]] (fun _ => None) = (st0, Ok tt) /\
  sh_read_chunk ex_sharded st0 [0; 0] (repeat [0; 0] 4) = Ok (false, [[1; 0]; [2; 0]; [3; 0]; [4; 0]]) /\
  exists y, reach (system_step (chunk_call_code ex_sharded))
      (system_init st0 [[OpWrite [1; 0] [[5; 0]; [2; 0]; [3; 0]; [4; 0]]]]) y /\
    sh_read_chunk ex_sharded (fst (y_mem y)) [0; 0] (repeat [0; 0] 4) = Throw ERuntime.
Proof.
  destruct (run_shard_ops ex_sharded [OpWrite [0; 0] [[1; 0]; [2; 0]; [3; 0]; [4; 0]]] (fun _ => None)) as [st0 r] eqn:E0.
  assert (F0 : let (st0, r) := run_shard_ops ex_sharded [OpWrite [0; 0] [[1; 0]; [2; 0]; [3; 0]; [4; 0]]] (fun _ => None) in
     r = Ok tt /\ sh_read_chunk ex_sharded st0 [0; 0] (repeat [0; 0] 4) = Ok (false, [[1; 0]; [2; 0]; [3; 0]; [4; 0]]) /\
     match exec (chunk_call_code ex_sharded) (system_init st0 [[OpWrite [1; 0] [[5; 0]; [2; 0]; [3; 0]; [4; 0]]]]) [0; 0; 0; 0]%nat with
     | Some y => sh_read_chunk ex_sharded (fst (y_mem y)) [0; 0] (repeat [0; 0] 4) = Throw ERuntime
     | None => False
     end) by (vm_compute; auto).
  rewrite E0 in F0. destruct F0 as (-> & F1 & F2). exists st0. split; [reflexivity|]. split; [exact F1|].
  destruct (exec _ _ _) as [y|] eqn:E; [|destruct F2]. exists y. split; [|exact F2].
  eapply exec_reach; [apply reach_refl|exact E].
Qed.
Print Assumptions C40_reader_refuted.
