(** Property C117: clients that use one array in an object store side by side. *)
From Verif Require Import M_Base M_Text M_Key M_Blocking M_View M_Bytes M_N5Header M_Format
  M_Mode M_Shard M_Dataset M_Sharded M_Access M_Pool M_Parallel M_Lock M_Clients M_S3Clients
  S_Array S_Grid S_Bytes S_Text S_Format S_Shard S_Dataset S_Sharded S_Access S_Lock S_Clients S_S3Clients
  P_Base P_Pool P_Lock P_Clients P_Clients2 P_S3Clients P_S3Clients2
  Properties_Dataset Properties_Access Properties_Sharded Properties_Clients.
Import List ListNotations.
Local Open Scope list_scope.
Local Open Scope N_scope.

(** C117, datasets without shards: after a history [pre], several clients use the array
    without coordination, and no client changes a chunk that a call of another client is
    about.  In every interleaving of their requests, at every moment:
    - the answers a client has got are those of an array that only it uses;
    - while a client is between two calls, all readers of regions whose chunks no other
      client changes see this array, whatever the other clients are doing.
    When all calls have returned, the objects and the array are those of any sequence of
    all calls in which each client's calls keep their order. *)
Theorem C117_plain d pre st00 st0 calls y : dataset_ok d -> can_write (d_mode d) = true -> Forall (array_op_ok d) pre ->
  (forall c, valid_chunk (d_shape d) (d_chunks d) c -> st00 (chunk_key (d_key d) c) = None) ->
  run_array_ops d pre st00 = (st0, Ok tt) ->
  Forall (Forall (client_call_ok d)) calls -> apart d (fun x => x) calls ->
  reach (clients_step (s3_body d)) (clients_init st0 calls) y ->
  let a0 := apply_ops d pre (fun _ => d_fill d) in
  (forall t cs, nth_error calls t = Some cs -> exists rest, cs = calls_by t (k_log y) ++ rest /\
     answers_of d a0 (calls_by t (k_log y)) (answers_to t (k_log y)) /\ (all_answered y -> rest = []) /\
     (forall x ov off out, nth_error (k_clients y) t = Some (KIdle, x) ->
        region_ok d off (v_shape ov) -> out_view_ok ov (lenN out) ->
        (forall t' cs' c u v, t' <> t -> nth_error calls t' = Some cs' -> In c cs' -> changes d c u ->
           overlaps (d_shape d) (d_chunks d) off (v_shape ov) v -> u <> v) ->
        exists out', read_subarray d (k_files y) ov off out = Ok out' /\
          shows_region d (apply_ops d (ops_of (calls_by t (k_log y))) a0) ov off out out')) /\
  (forall order, interleaving calls order -> all_answered y ->
     (exists st2, run_array_ops d (ops_of order) st0 = (st2, Ok tt) /\ forall k, k_files y k = st2 k) /\
     forall ov off out, region_ok d off (v_shape ov) -> out_view_ok ov (lenN out) ->
       exists out', read_subarray d (k_files y) ov off out = Ok out' /\
         shows_region d (apply_ops d (ops_of order) a0) ov off out out').
Proof. intros H Hw. exact (@s3_clients d H Hw pre st00 st0 calls y). Qed.
Print Assumptions C117_plain.

(** C117, sharded datasets: the same if no client changes a chunk in a shard that a call
    of another client is about. *)
Theorem C117_sharded sd pre st00 st0 calls y : sharded_ok sd -> can_write (d_mode (sd_base sd)) = true ->
  Forall (array_op_ok (sd_base sd)) pre ->
  (forall c, valid_chunk (d_shape (sd_base sd)) (d_chunks (sd_base sd)) c -> st00 (shard_key sd c) = None) ->
  run_sharded_ops sd pre st00 = (st0, Ok tt) ->
  Forall (Forall (client_call_ok (sd_base sd))) calls -> apart (sd_base sd) (shard_of (sd_cps sd)) calls ->
  reach (clients_step (s3_sharded_body sd)) (clients_init st0 calls) y ->
  let a0 := apply_ops (sd_base sd) pre (fun _ => d_fill (sd_base sd)) in
  (forall t cs, nth_error calls t = Some cs -> exists rest, cs = calls_by t (k_log y) ++ rest /\
     answers_of (sd_base sd) a0 (calls_by t (k_log y)) (answers_to t (k_log y)) /\ (all_answered y -> rest = []) /\
     (forall x ov off out, nth_error (k_clients y) t = Some (KIdle, x) ->
        region_ok (sd_base sd) off (v_shape ov) -> out_view_ok ov (lenN out) ->
        (forall t' cs' c u v, t' <> t -> nth_error calls t' = Some cs' -> In c cs' -> changes (sd_base sd) c u ->
           overlaps (d_shape (sd_base sd)) (d_chunks (sd_base sd)) off (v_shape ov) v ->
           shard_of (sd_cps sd) u <> shard_of (sd_cps sd) v) ->
        exists out', sh_read_subarray sd (k_files y) ov off out = Ok out' /\
          shows_region (sd_base sd) (apply_ops (sd_base sd) (ops_of (calls_by t (k_log y))) a0) ov off out out')) /\
  (forall order, interleaving calls order -> all_answered y ->
     (exists st2, run_sharded_ops sd (ops_of order) st0 = (st2, Ok tt) /\ forall k, k_files y k = st2 k) /\
     forall ov off out, region_ok (sd_base sd) off (v_shape ov) -> out_view_ok ov (lenN out) ->
       exists out', sh_read_subarray sd (k_files y) ov off out = Ok out' /\
         shows_region (sd_base sd) (apply_ops (sd_base sd) (ops_of order) a0) ov off out out').
Proof. exact (@s3_sharded_clients sd pre st00 st0 calls y). Qed.
Print Assumptions C117_sharded.

(** C117: no client waits for another one, and all calls return. *)
Theorem C117_progress d y : (all_answered y \/ exists y', clients_step (s3_body d) y y') /\
  Acc (fun a b => clients_step (s3_body d) b a) y.
Proof. split; [apply clients_progress|apply clients_terminate]. Qed.
Print Assumptions C117_progress.
Theorem C117_sharded_progress sd y : (all_answered y \/ exists y', clients_step (s3_sharded_body sd) y y') /\
  Acc (fun a b => clients_step (s3_sharded_body sd) b a) y.
Proof. split; [apply clients_progress|apply clients_terminate]. Qed.
Print Assumptions C117_sharded_progress.

(** The three clients of [C96_case]. *)
Example C117_case : dataset_ok ex_zarr /\ sharded_ok ex_sharded /\
  Forall (array_op_ok ex_zarr) ex_pre /\ Forall (Forall (client_call_ok ex_zarr)) ex_clients /\
  apart ex_zarr (fun x => x) ex_clients /\ apart (sd_base ex_sharded) (shard_of (sd_cps ex_sharded)) ex_clients /\
  (exists st0 y, run_array_ops ex_zarr ex_pre (fun _ => None) = (st0, Ok tt) /\
     reach (clients_step (s3_body ex_zarr)) (clients_init st0 ex_clients) y /\ all_answered y /\
     map (fun t => answers_to t (k_log y)) [0; 1; 2]%nat = ex_answers) /\
  (exists st0 y, run_sharded_ops ex_sharded ex_pre (fun _ => None) = (st0, Ok tt) /\
     reach (clients_step (s3_sharded_body ex_sharded)) (clients_init st0 ex_clients) y /\ all_answered y /\
     map (fun t => answers_to t (k_log y)) [0; 1; 2]%nat = ex_answers).
Proof.
  split; [exact ex_zarr_ok|]. split; [exact ex_sharded_ok|]. split; [apply ex_clients_ok|]. split; [apply ex_clients_ok|].
  split; [apply ex_apart|]. split.
  { destruct ex_apart as [_ H]. exact H. }
  split.
  - destruct (run_array_ops ex_zarr ex_pre (fun _ => None)) as [st0 r] eqn:E0.
    assert (F : let (st0, r) := run_array_ops ex_zarr ex_pre (fun _ => None) in
      r = Ok tt /\ let y := kexec (s3_body ex_zarr) (clients_init st0 ex_clients) ex_turns in
      k_clients y = repeat (KIdle, []) 3 /\ map (fun t => answers_to t (k_log y)) [0; 1; 2]%nat = ex_answers) by (vm_compute; auto).
    rewrite E0 in F. destruct F as (-> & F1 & F2). exists st0, (kexec (s3_body ex_zarr) (clients_init st0 ex_clients) ex_turns).
    split; [reflexivity|]. split; [apply kexec_reach, reach_refl|]. split; [|exact F2].
    unfold all_answered. rewrite F1. repeat constructor.
  - destruct (run_sharded_ops ex_sharded ex_pre (fun _ => None)) as [st0 r] eqn:E0.
    assert (F : let (st0, r) := run_sharded_ops ex_sharded ex_pre (fun _ => None) in
      r = Ok tt /\ let y := kexec (s3_sharded_body ex_sharded) (clients_init st0 ex_clients) ex_turns in
      k_clients y = repeat (KIdle, []) 3 /\ map (fun t => answers_to t (k_log y)) [0; 1; 2]%nat = ex_answers) by (vm_compute; auto).
    rewrite E0 in F. destruct F as (-> & F1 & F2). exists st0, (kexec (s3_sharded_body ex_sharded) (clients_init st0 ex_clients) ex_turns).
    split; [reflexivity|]. split; [apply kexec_reach, reach_refl|]. split; [|exact F2].
    unfold all_answered. rewrite F1. repeat constructor.
Qed.

(** Refuted for clients that write different elements of the same chunk: both calls
    return normally and one of the writes is lost. *)
Theorem C117_same_chunk_refuted :
  exists y, reach (clients_step (s3_body ex_zarr)) (clients_init (fun _ => None)
      [[KOp (AWrite [0; 0] [1; 1] (FromScalar [9; 1]))]; [KOp (AWrite [1; 1] [1; 1] (FromScalar [8; 1]))]]) y /\
    all_answered y /\ map snd (k_log y) = [Ok []; Ok []] /\
    read_subarray ex_zarr (k_files y) (View 0 [2; 2] [2; 1]) [0; 0] (repeat [0; 0] 4) = Ok [[7; 0]; [7; 0]; [7; 0]; [8; 1]].
Proof.
  set (init := clients_init _ _). exists (kexec (s3_body ex_zarr) init (List.concat (repeat [0; 1]%nat 20))).
  split; [apply kexec_reach, reach_refl|].
  assert (F : k_clients (kexec (s3_body ex_zarr) init (List.concat (repeat [0; 1]%nat 20))) = repeat (KIdle, []) 2) by (vm_compute; reflexivity).
  split; [unfold all_answered; rewrite F; repeat constructor|]. split; vm_compute; reflexivity.
Qed.
Print Assumptions C117_same_chunk_refuted.

(** Refuted for clients that write different chunks of the same shard. *)
Theorem C117_same_shard_refuted :
  exists y, reach (clients_step (s3_sharded_body ex_sharded)) (clients_init (fun _ => None)
      [[KOp (AChunk [0; 0] [[1; 0]; [2; 0]; [3; 0]; [4; 0]])]; [KOp (AChunk [1; 0] [[5; 0]; [2; 0]; [3; 0]; [4; 0]])]]) y /\
    all_answered y /\ map snd (k_log y) = [Ok []; Ok []] /\
    sh_chunk_exists ex_sharded (k_files y) [0; 0] = Ok false /\ sh_chunk_exists ex_sharded (k_files y) [1; 0] = Ok true.
Proof.
  set (init := clients_init _ _). exists (kexec (s3_sharded_body ex_sharded) init (List.concat (repeat [0; 1]%nat 20))).
  split; [apply kexec_reach, reach_refl|].
  assert (F : k_clients (kexec (s3_sharded_body ex_sharded) init (List.concat (repeat [0; 1]%nat 20))) = repeat (KIdle, []) 2) by (vm_compute; reflexivity).
  split; [unfold all_answered; rewrite F; repeat constructor|]. split; [vm_compute; reflexivity|]. split; vm_compute; reflexivity.
Qed.
Print Assumptions C117_same_shard_refuted.
