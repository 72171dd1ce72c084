(** Property C120: writes to an array in an object store on several threads. *)
From Verif Require Import M_Base M_Text M_Key M_Blocking M_View M_Bytes M_N5Header M_Format
  M_Mode M_Shard M_Dataset M_Sharded M_Access M_Pool M_Parallel M_Lock M_Clients M_S3Clients M_RemoveCrash M_S3Parallel
  S_Array S_Grid S_Bytes S_Text S_Format S_Shard S_Dataset S_Sharded S_Access S_File S_Pool S_Parallel
  S_Lock S_Clients S_Readers S_S3Clients S_S3Parallel
  P_Base P_Blocking P_Roi P_View P_Bytes P_Key P_Format P_Shard P_Dataset P_Access P_Read P_History P_Sharded P_File P_Pool
  P_Foreach P_Parallel P_ParWrite P_ParSharded P_ParHistory P_S3Parallel P_S3Parallel2
  Properties_Access Properties_Sharded Properties_File Properties_Parallel.
Import List ListNotations.
Local Open Scope list_scope.
Local Open Scope N_scope.

(** C120: a write with any number of threads and under any schedule has the result and
    leaves the objects of the single threaded write.  If it fails, only objects of the
    covered chunks may have changed. *)
Theorem C120_write d : dataset_ok d -> forall threads est src off n st st1 r,
  region_ok d off n -> source_ok (t_width (d_type d)) n src ->
  (forall c file, overlaps (d_shape d) (d_chunks d) off n c ->
     st (chunk_key (d_key d) c) = Some file -> overwritable d c file) ->
  s3_write_run d threads est src off n st st1 r ->
  r = snd (write_request d src off n st) /\
  (r = Ok tt -> forall k, st1 k = fst (write_request d src off n st) k) /\
  (forall k, (forall c, overlaps (d_shape d) (d_chunks d) off n c -> k <> chunk_key (d_key d) c) -> st1 k = st k) /\
  r <> UB.
Proof. intros H threads est src off n st st1 r. exact (@s3_par_write d H threads est src off n st st1 r). Qed.
Print Assumptions C120_write.

(** C120, sharded datasets. *)
Theorem C120_sharded_write sd : sharded_ok sd -> forall threads est src off n st st1 r,
  region_ok (sd_base sd) off n -> source_ok (t_width (d_type (sd_base sd))) n src ->
  (forall c, overlaps (d_shape (sd_base sd)) (d_chunks (sd_base sd)) off n c -> complete_slot sd st c) ->
  s3_sh_write_run sd threads est src off n st st1 r ->
  r = snd (sh_write_request sd src off n st) /\
  (r = Ok tt -> forall k, st1 k = fst (sh_write_request sd src off n st) k) /\
  (forall k, (forall c, overlaps (d_shape (sd_base sd)) (d_chunks (sd_base sd)) off n c -> k <> shard_key sd c) ->
     st1 k = st k) /\
  r <> UB.
Proof. intros H threads est src off n st st1 r. exact (@s3_sh_par_write sd H threads est src off n st st1 r). Qed.
Print Assumptions C120_sharded_write.

(** C120: histories.  Operations on an array that was empty, each with its own number of
    threads and its own schedule, all succeed, and later reads, with any number of
    threads, return the elements of the array.  Reading an object that nobody writes is
    reading a file, so [read_run] is used. *)
Theorem C120_history d : dataset_ok d -> can_write (d_mode d) = true -> forall ops st st' rs,
  Forall (fun o => array_op_ok d (snd o)) ops ->
  (forall c, valid_chunk (d_shape d) (d_chunks d) c -> st (chunk_key (d_key d) c) = None) ->
  history (s3_par_op d) ops st st' rs ->
  Forall (eq (Ok tt)) rs /\
  forall threads est ov off l o o' r, region_ok d off (v_shape ov) -> out_view_ok ov (lenN l) -> lists o l ->
    read_run d threads est st' ov off (lenN l) o o' r ->
    r = Ok tt /\
    (forall i, in_shape (v_shape ov) i ->
       same_value d (o' (v_off ov + lin (v_strides ov) i)) (apply_ops d (map snd ops) (fun _ => d_fill d) (vadd off i)) /\
       (t_float (d_type d) = false ->
          o' (v_off ov + lin (v_strides ov) i) = apply_ops d (map snd ops) (fun _ => d_fill d) (vadd off i))) /\
    (forall a, (forall i, in_shape (v_shape ov) i -> a <> v_off ov + lin (v_strides ov) i) -> o' a = o a).
Proof. intros H Hw ops st st' rs. exact (@s3_plain_history d H Hw ops st st' rs). Qed.
Print Assumptions C120_history.
Theorem C120_sharded_history sd : sharded_ok sd -> can_write (d_mode (sd_base sd)) = true -> forall ops st st' rs,
  Forall (fun o => array_op_ok (sd_base sd) (snd o)) ops ->
  (forall c, valid_chunk (d_shape (sd_base sd)) (d_chunks (sd_base sd)) c -> st (shard_key sd c) = None) ->
  history (s3_sh_par_op sd) ops st st' rs ->
  Forall (eq (Ok tt)) rs /\
  forall threads est ov off l o o' r, region_ok (sd_base sd) off (v_shape ov) -> out_view_ok ov (lenN l) -> lists o l ->
    sh_read_run sd threads est st' ov off (lenN l) o o' r ->
    r = Ok tt /\
    (forall i, in_shape (v_shape ov) i ->
       same_value (sd_base sd) (o' (v_off ov + lin (v_strides ov) i))
         (apply_ops (sd_base sd) (map snd ops) (fun _ => d_fill (sd_base sd)) (vadd off i)) /\
       (t_float (d_type (sd_base sd)) = false ->
          o' (v_off ov + lin (v_strides ov) i) =
          apply_ops (sd_base sd) (map snd ops) (fun _ => d_fill (sd_base sd)) (vadd off i))) /\
    (forall a, (forall i, in_shape (v_shape ov) i -> a <> v_off ov + lin (v_strides ov) i) -> o' a = o a).
Proof. intros H Hw ops st st' rs. exact (@s3_sharded_history sd ops st st' rs H Hw). Qed.
Print Assumptions C120_sharded_history.

(** Runs and histories exist for every number of threads. *)
Theorem C120_runs_exist d : dataset_ok d -> forall threads est src off n st,
  region_ok d off n -> source_ok (t_width (d_type d)) n src ->
  (forall c file, overlaps (d_shape d) (d_chunks d) off n c ->
     st (chunk_key (d_key d) c) = Some file -> overwritable d c file) ->
  exists st1 r, s3_write_run d threads est src off n st st1 r.
Proof. intros H threads est src off n st Hr Hs HF. exact (@s3_write_exists d H threads est src off n st Hr Hs HF). Qed.
Print Assumptions C120_runs_exist.
Theorem C120_sharded_runs_exist sd : sharded_ok sd -> forall threads est src off n st,
  region_ok (sd_base sd) off n -> source_ok (t_width (d_type (sd_base sd))) n src ->
  (forall c, overlaps (d_shape (sd_base sd)) (d_chunks (sd_base sd)) off n c -> complete_slot sd st c) ->
  exists st1 r, s3_sh_write_run sd threads est src off n st st1 r.
Proof. intros H threads est src off n st Hr Hs HF. exact (@s3_sh_write_exists sd H threads est src off n st Hr Hs HF). Qed.
Print Assumptions C120_sharded_runs_exist.
Theorem C120_histories_exist d : dataset_ok d -> can_write (d_mode d) = true -> forall ops st,
  Forall (fun o => array_op_ok d (snd o)) ops ->
  (forall c, valid_chunk (d_shape d) (d_chunks d) c -> st (chunk_key (d_key d) c) = None) ->
  exists st' rs, history (s3_par_op d) ops st st' rs.
Proof. intros H Hw ops st. exact (@s3_plain_history_exists d H Hw ops st). Qed.
Print Assumptions C120_histories_exist.
Theorem C120_histories_exist_sharded sd : sharded_ok sd -> can_write (d_mode (sd_base sd)) = true -> forall ops st,
  Forall (fun o => array_op_ok (sd_base sd) (snd o)) ops ->
  (forall c, valid_chunk (d_shape (sd_base sd)) (d_chunks (sd_base sd)) c -> st (shard_key sd c) = None) ->
  exists st' rs, history (s3_sh_par_op sd) ops st st' rs.
Proof. intros H Hw ops st. exact (@s3_sharded_history_exists sd ops st H Hw). Qed.
Print Assumptions C120_histories_exist_sharded.

(** The operations of C30_case and C32_case with 1, 4, 2 and 8 threads. *)
Example C120_case :
  map snd ex_par_ops = ex_ops /\ Forall (fun o => array_op_ok (sd_base ex_sharded) (snd o)) ex_par_ops /\
  exists st' rs, history (s3_sh_par_op ex_sharded) ex_par_ops (fun _ => None) st' rs /\
    rs = [Ok tt; Ok tt; Ok tt; Ok tt].
Proof.
  split; [reflexivity|].
  assert (HO : Forall (fun o => array_op_ok (sd_base ex_sharded) (snd o)) ex_par_ops).
  { apply (Forall_map snd (array_op_ok (sd_base ex_sharded))). exact ex_sharded_ops. }
  split; [exact HO|].
  destruct (@C120_histories_exist_sharded ex_sharded ex_sharded_ok eq_refl ex_par_ops (fun _ => None) HO (fun _ _ => eq_refl)) as (st' & rs & H).
  exists st', rs. split; [exact H|].
  destruct (@C120_sharded_history ex_sharded ex_sharded_ok eq_refl _ _ _ _ HO (fun _ _ => eq_refl) H) as [R _].
  assert (L : List.length rs = 4%nat).
  { revert H. unfold ex_par_ops. cbn [combine ex_ops]. intros H.
    repeat match goal with H : history _ _ _ _ _ |- _ => inversion H; clear H; subst end. reflexivity. }
  destruct rs as [|r1 [|r2 [|r3 [|r4 [|]]]]]; try discriminate L.
  repeat match goal with H : Forall _ (_ :: _) |- _ => inversion H; clear H; subst end. reflexivity.
Qed.
