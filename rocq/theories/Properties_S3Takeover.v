(** Property C118: another client takes over after a writer of an array in an object
    store was stopped. *)
From Verif Require Import M_Base M_Text M_Key M_Blocking M_View M_Bytes M_N5Header M_Format
  M_Mode M_Shard M_Dataset M_Sharded M_Access M_Pool M_Parallel M_Lock M_Clients M_S3Clients
  S_Array S_Grid S_Bytes S_Text S_Format S_Shard S_Dataset S_Sharded S_Access S_Lock S_Clients S_Readers S_S3Clients
  P_Base P_Pool P_Lock P_Clients P_Clients2 P_Readers P_Readers2 P_Readers3 P_S3Clients P_S3Takeover
  Properties_Dataset Properties_Access Properties_Sharded Properties_Readers Properties_PlainReaders Properties_S3Clients.
Import List ListNotations.
Local Open Scope list_scope.
Local Open Scope N_scope.

(** C118, datasets without shards: client [wr] makes the calls [cs] and all other clients
    only read.  If all of them stop at any moment, the elements of each chunk are those
    after the [n] calls that have returned or after the next one; if the writer was
    between two calls, they are those after [n] calls.  All later calls by others succeed
    and act on this array. *)
Theorem C118_stopped d pre st00 st0 calls wr cs y : dataset_ok d -> can_write (d_mode d) = true ->
  Forall (array_op_ok d) pre ->
  (forall c, valid_chunk (d_shape d) (d_chunks d) c -> st00 (chunk_key (d_key d) c) = None) -> run_array_ops d pre st00 = (st0, Ok tt) ->
  Forall (Forall (client_call_ok d)) calls -> nth_error calls wr = Some cs ->
  (forall t' cs', t' <> wr -> nth_error calls t' = Some cs' -> Forall read_only cs') ->
  reach (clients_step (s3_body d)) (clients_init st0 calls) y ->
  let a0 := apply_ops d pre (fun _ => d_fill d) in
  let n := List.length (calls_by wr (k_log y)) in
  exists moment, (forall c, (n <= moment c <= S n)%nat) /\
    (forall rest, nth_error (k_clients y) wr = Some (KIdle, rest) -> forall c, moment c = n) /\
    forall post, Forall (array_op_ok d) post ->
      exists st', run_array_ops d post (k_files y) = (st', Ok tt) /\
        forall ov off out, region_ok d off (v_shape ov) -> out_view_ok ov (lenN out) ->
          exists out', read_subarray d st' ov off out = Ok out' /\
            shows_region d (apply_ops d post (chunk_patchwork d cs a0 moment)) ov off out out'.
Proof. intros ok Hw. exact (@s3_stopped d ok Hw pre st00 st0 calls wr cs y). Qed.
Print Assumptions C118_stopped.

(** C118, sharded datasets: the same, shard by shard. *)
Theorem C118_sharded_stopped sd pre st00 st0 calls wr cs y : sharded_ok sd -> can_write (d_mode (sd_base sd)) = true ->
  Forall (array_op_ok (sd_base sd)) pre ->
  (forall c, valid_chunk (d_shape (sd_base sd)) (d_chunks (sd_base sd)) c -> st00 (shard_key sd c) = None) ->
  run_sharded_ops sd pre st00 = (st0, Ok tt) ->
  Forall (Forall (client_call_ok (sd_base sd))) calls -> nth_error calls wr = Some cs ->
  (forall t' cs', t' <> wr -> nth_error calls t' = Some cs' -> Forall read_only cs') ->
  reach (clients_step (s3_sharded_body sd)) (clients_init st0 calls) y ->
  let a0 := apply_ops (sd_base sd) pre (fun _ => d_fill (sd_base sd)) in
  let n := List.length (calls_by wr (k_log y)) in
  exists moment, (forall k, (n <= moment k <= S n)%nat) /\
    (forall rest, nth_error (k_clients y) wr = Some (KIdle, rest) -> forall k, moment k = n) /\
    forall post, Forall (array_op_ok (sd_base sd)) post ->
      exists st', run_sharded_ops sd post (k_files y) = (st', Ok tt) /\
        forall ov off out, region_ok (sd_base sd) off (v_shape ov) -> out_view_ok ov (lenN out) ->
          exists out', sh_read_subarray sd st' ov off out = Ok out' /\
            shows_region (sd_base sd) (apply_ops (sd_base sd) post (patchwork sd cs a0 moment)) ov off out out'.
Proof. exact (@s3_sharded_stopped sd pre st00 st0 calls wr cs y). Qed.
Print Assumptions C118_sharded_stopped.

(** C118: whoever then repeats the calls that have not returned, gets the array of all
    calls, as if nothing had been interrupted. *)
Theorem C118_retry d pre st00 st0 calls wr cs y : dataset_ok d -> can_write (d_mode d) = true -> Forall (array_op_ok d) pre ->
  (forall c, valid_chunk (d_shape d) (d_chunks d) c -> st00 (chunk_key (d_key d) c) = None) ->
  run_array_ops d pre st00 = (st0, Ok tt) ->
  Forall (Forall (client_call_ok d)) calls -> nth_error calls wr = Some cs ->
  (forall t' cs', t' <> wr -> nth_error calls t' = Some cs' -> Forall read_only cs') ->
  reach (clients_step (s3_body d)) (clients_init st0 calls) y ->
  exists st', run_array_ops d (ops_of (skipn (List.length (calls_by wr (k_log y))) cs)) (k_files y) = (st', Ok tt) /\
    forall ov off out, region_ok d off (v_shape ov) -> out_view_ok ov (lenN out) ->
      exists out', read_subarray d st' ov off out = Ok out' /\
        shows_region d (apply_ops d (ops_of cs) (apply_ops d pre (fun _ => d_fill d))) ov off out out'.
Proof. exact (@s3_retry d pre st00 st0 calls wr cs y). Qed.
Print Assumptions C118_retry.
Theorem C118_sharded_retry sd pre st00 st0 calls wr cs y : sharded_ok sd -> can_write (d_mode (sd_base sd)) = true ->
  Forall (array_op_ok (sd_base sd)) pre ->
  (forall c, valid_chunk (d_shape (sd_base sd)) (d_chunks (sd_base sd)) c -> st00 (shard_key sd c) = None) ->
  run_sharded_ops sd pre st00 = (st0, Ok tt) ->
  Forall (Forall (client_call_ok (sd_base sd))) calls -> nth_error calls wr = Some cs ->
  (forall t' cs', t' <> wr -> nth_error calls t' = Some cs' -> Forall read_only cs') ->
  reach (clients_step (s3_sharded_body sd)) (clients_init st0 calls) y ->
  exists st', run_sharded_ops sd (ops_of (skipn (List.length (calls_by wr (k_log y))) cs)) (k_files y) = (st', Ok tt) /\
    forall ov off out, region_ok (sd_base sd) off (v_shape ov) -> out_view_ok ov (lenN out) ->
      exists out', sh_read_subarray sd st' ov off out = Ok out' /\
        shows_region (sd_base sd) (apply_ops (sd_base sd) (ops_of cs) (apply_ops (sd_base sd) pre (fun _ => d_fill (sd_base sd)))) ov off out out'.
Proof. exact (@s3_sharded_retry sd pre st00 st0 calls wr cs y). Qed.
Print Assumptions C118_sharded_retry.

(** The writer of [C116_case] is stopped in its third call, after the first chunk. *)
Definition ex_whole : view := View 0 [5; 3] [3; 1].
Example C118_case : dataset_ok ex_n5 /\ can_write (d_mode ex_n5) = true /\
  Forall (array_op_ok ex_n5) ex_past /\ Forall (Forall (client_call_ok ex_n5)) ex_bunch /\
  (forall t cs, t <> 0%nat -> nth_error ex_bunch t = Some cs -> Forall read_only cs) /\
  exists st0 y, run_array_ops ex_n5 ex_past (fun _ => None) = (st0, Ok tt) /\
    reach (clients_step (s3_body ex_n5)) (clients_init st0 ex_bunch) y /\
    List.length (calls_by 0 (k_log y)) = 2%nat /\
    read_subarray ex_n5 (k_files y) ex_whole [0; 0] (repeat [1; 1] 15) =
      Ok ([[8; 1]; [8; 1]; [7; 0]; [8; 1]; [8; 1]; [7; 0]] ++ repeat [5; 5] 9) /\
    exists st', run_array_ops ex_n5 [AWrite [0; 0] [5; 3] (FromScalar [8; 1])] (k_files y) = (st', Ok tt) /\
      read_subarray ex_n5 st' ex_whole [0; 0] (repeat [1; 1] 15) = Ok (repeat [8; 1] 15).
Proof.
  destruct (@ex_trio_ok ex_n5 (or_introl Logic.eq_refl)) as (P1 & _). destruct (@ex_bunch_ok ex_n5 (or_introl Logic.eq_refl)) as (P2 & P3).
  split; [exact ex_n5_ok|]. split; [reflexivity|]. split; [exact P1|]. split; [exact P2|]. split; [exact P3|].
  destruct (run_array_ops ex_n5 ex_past (fun _ => None)) as [st0 r] eqn:E0.
  set (s1 := repeat 0%nat 12).
  assert (F : let (st0, r) := run_array_ops ex_n5 ex_past (fun _ => None) in
    r = Ok tt /\ let y := kexec (s3_body ex_n5) (clients_init st0 ex_bunch) s1 in
    List.length (calls_by 0 (k_log y)) = 2%nat /\
    read_subarray ex_n5 (k_files y) ex_whole [0; 0] (repeat [1; 1] 15) =
      Ok ([[8; 1]; [8; 1]; [7; 0]; [8; 1]; [8; 1]; [7; 0]] ++ repeat [5; 5] 9) /\
    let x := run_array_ops ex_n5 [AWrite [0; 0] [5; 3] (FromScalar [8; 1])] (k_files y) in
    snd x = Ok tt /\ read_subarray ex_n5 (fst x) ex_whole [0; 0] (repeat [1; 1] 15) = Ok (repeat [8; 1] 15)).
  { vm_compute. auto 10. }
  rewrite E0 in F. cbv zeta in F. destruct F as (-> & F1 & F2 & F3 & F4).
  set (y := kexec (s3_body ex_n5) (clients_init st0 ex_bunch) s1) in *.
  exists st0, y. split; [reflexivity|]. split; [apply kexec_reach, reach_refl|]. split; [exact F1|]. split; [exact F2|].
  destruct (run_array_ops ex_n5 [AWrite [0; 0] [5; 3] (FromScalar [8; 1])] (k_files y)) as [st' r'].
  cbn [fst snd] in F3, F4. subst r'. exists st'. auto.
Qed.

(** The same for shards, with [ex_pair]. *)
Example C118_sharded_case : sharded_ok ex_sharded /\ can_write (d_mode (sd_base ex_sharded)) = true /\
  Forall (array_op_ok (sd_base ex_sharded)) [ex_all [9; 1]] /\ Forall (Forall (client_call_ok (sd_base ex_sharded))) ex_pair /\
  (forall t cs, t <> 0%nat -> nth_error ex_pair t = Some cs -> Forall read_only cs) /\
  exists st0 y, run_sharded_ops ex_sharded [ex_all [9; 1]] (fun _ => None) = (st0, Ok tt) /\
    reach (clients_step (s3_sharded_body ex_sharded)) (clients_init st0 ex_pair) y /\
    List.length (calls_by 0 (k_log y)) = 0%nat /\
    sh_read_subarray ex_sharded (k_files y) ex_whole [0; 0] (repeat [1; 1] 15) =
      Ok (repeat [8; 1] 2 ++ [[9; 1]] ++ repeat [8; 1] 2 ++ [[9; 1]] ++ repeat [8; 1] 2 ++ [[9; 1]] ++
      repeat [8; 1] 2 ++ repeat [9; 1] 4) /\
    exists st', run_sharded_ops ex_sharded [ex_all [8; 1]; ex_all [6; 1]] (k_files y) = (st', Ok tt) /\
      sh_read_subarray ex_sharded st' ex_whole [0; 0] (repeat [1; 1] 15) = Ok (repeat [6; 1] 15).
Proof.
  destruct ex_pair_ok as (P1 & P2 & P3). split; [exact ex_sharded_ok|]. split; [reflexivity|].
  split; [exact P1|]. split; [exact P2|]. split; [exact P3|].
  destruct (run_sharded_ops ex_sharded [ex_all [9; 1]] (fun _ => None)) as [st0 r] eqn:E0.
  set (s1 := repeat 0%nat 3).
  assert (F : let (st0, r) := run_sharded_ops ex_sharded [ex_all [9; 1]] (fun _ => None) in
    r = Ok tt /\ let y := kexec (s3_sharded_body ex_sharded) (clients_init st0 ex_pair) s1 in
    List.length (calls_by 0 (k_log y)) = 0%nat /\
    sh_read_subarray ex_sharded (k_files y) ex_whole [0; 0] (repeat [1; 1] 15) =
      Ok (repeat [8; 1] 2 ++ [[9; 1]] ++ repeat [8; 1] 2 ++ [[9; 1]] ++ repeat [8; 1] 2 ++ [[9; 1]] ++
      repeat [8; 1] 2 ++ repeat [9; 1] 4) /\
    let x := run_sharded_ops ex_sharded [ex_all [8; 1]; ex_all [6; 1]] (k_files y) in
    snd x = Ok tt /\ sh_read_subarray ex_sharded (fst x) ex_whole [0; 0] (repeat [1; 1] 15) = Ok (repeat [6; 1] 15)).
  { vm_compute. auto 10. }
  rewrite E0 in F. cbv zeta in F. destruct F as (-> & F1 & F2 & F3 & F4).
  set (y := kexec (s3_sharded_body ex_sharded) (clients_init st0 ex_pair) s1) in *.
  exists st0, y. split; [reflexivity|]. split; [apply kexec_reach, reach_refl|]. split; [exact F1|]. split; [exact F2|].
  destruct (run_sharded_ops ex_sharded [ex_all [8; 1]; ex_all [6; 1]] (k_files y)) as [st' r'].
  cbn [fst snd] in F3, F4. subst r'. exists st'. auto.
Qed.

(** Refuted for files: the writer is stopped after it has truncated the file of a chunk,
    and whoever repeats the call that was interrupted gets an exception, because it
    reads the rest of the chunk first. *)
Theorem C118_files_refuted :
  let o := AWrite [0; 0] [1; 1] (FromScalar [9; 1]) in
  Forall (array_op_ok ex_n5) ex_past /\ array_op_ok ex_n5 o /\
  exists st0 y, run_array_ops ex_n5 ex_past (fun _ => None) = (st0, Ok tt) /\
    reach (clients_step (plain_body ex_n5)) (clients_init st0 [[KOp o]]) y /\
    exists st', run_array_ops ex_n5 [o] (k_files y) = (st', Throw ERuntime).
Proof.
  cbv zeta. destruct (@ex_trio_ok ex_n5 (or_introl Logic.eq_refl)) as (P1 & _). split; [exact P1|].
  split; [split; [split; cbn; lia|split; [reflexivity|repeat constructor]]|].
  destruct (run_array_ops ex_n5 ex_past (fun _ => None)) as [st0 r] eqn:E0.
  set (o := AWrite [0; 0] [1; 1] (FromScalar [9; 1])). set (s1 := repeat 0%nat 4).
  assert (F : let (st0, r) := run_array_ops ex_n5 ex_past (fun _ => None) in
    r = Ok tt /\ let y := kexec (plain_body ex_n5) (clients_init st0 [[KOp o]]) s1 in
    snd (run_array_ops ex_n5 [o] (k_files y)) = Throw ERuntime) by (vm_compute; auto).
  rewrite E0 in F. destruct F as (-> & F). exists st0, (kexec (plain_body ex_n5) (clients_init st0 [[KOp o]]) s1).
  split; [reflexivity|]. split; [apply kexec_reach, reach_refl|]. cbv zeta in F.
  destruct (run_array_ops ex_n5 [o] _) as [st' r']. cbn [snd] in F. subst r'. now exists st'.
Qed.
Print Assumptions C118_files_refuted.
