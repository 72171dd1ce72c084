(** Writes to a dataset in an object store on several threads. *)
From Verif Require Import M_Base M_Text M_Key M_Blocking M_View M_Bytes M_Format
  M_Mode M_Shard M_Dataset M_Sharded M_Access M_Pool M_Parallel M_S3Clients M_RemoveCrash.

(** writeSubarray / writeScalar with [threads] threads: objects and result afterwards,
    include/z5/multiarray/array_access.hxx:253-288 with forEachChunkBatched (lines
    24-73) and include/z5/multiarray/broadcast.hxx:18-50; see [write_run]. *)
Inductive s3_write_run (d : dataset) (threads : N) (estimate : Z) (src : source) (off n : shape)
    (st : store) : store -> outcome unit -> Prop :=
| s3_write_run_reqs reqs m1 r : begin_request d off n = Ok reqs ->
    foreach_run threads estimate (List.length reqs)
      (fun _ i => s3_write_unit_code d src off n (nth i reqs []))
      (left_over (t_width (d_type d)))
      (repeat (d_fill d) (N.to_nat (prodw (d_chunks d)))) (st, fun _ => []) m1 r ->
    s3_write_run d threads estimate src off n st (fst m1) r
| s3_write_run_rejected e : begin_request d off n = Throw e ->
    s3_write_run d threads estimate src off n st st (Throw e).

(** The same for a sharded dataset, include/z5/multiarray/array_access.hxx:327-404; see
    [sh_write_run]. *)
Inductive s3_sh_write_run (sd : sharded) (threads : N) (estimate : Z) (src : source) (off n : shape)
    (st : store) : store -> outcome unit -> Prop :=
| s3_sh_write_run_groups groups m1 r :
    (let! reqs := begin_request (sd_base sd) off n in
     if negb (can_write (d_mode (sd_base sd))) then Throw EInvalidArgument else
     let! cps := chunks_per_shard (sd_shard sd) (d_chunks (sd_base sd)) in
     group_chunks cps reqs) = Ok groups ->
    foreach_run threads estimate (List.length groups)
      (fun _ i => s3_shard_write_unit_code sd src off n (nth i groups ([], [])))
      (left_over (t_width (d_type (sd_base sd))))
      (repeat (d_fill (sd_base sd)) (N.to_nat (prodw (d_chunks (sd_base sd))))) (st, fun _ => []) m1 r ->
    s3_sh_write_run sd threads estimate src off n st (fst m1) r
| s3_sh_write_run_rejected e :
    (let! reqs := begin_request (sd_base sd) off n in
     if negb (can_write (d_mode (sd_base sd))) then Throw EInvalidArgument else
     let! cps := chunks_per_shard (sd_shard sd) (d_chunks (sd_base sd)) in
     group_chunks cps reqs) = Throw e ->
    s3_sh_write_run sd threads estimate src off n st st (Throw e).

(** The two writes are stopped, all threads at the same moment, and leave the objects
    [st'], see [foreach_halted] (include/z5/multiarray/array_access.hxx:253-288 and
    327-404). *)
Inductive s3_write_halted (d : dataset) (threads : N) (estimate : Z) (src : source) (off n : shape)
    (st : store) : store -> Prop :=
| s3_write_halted_reqs reqs m1 : begin_request d off n = Ok reqs ->
    foreach_halted threads estimate (List.length reqs)
      (fun _ i => s3_write_unit_code d src off n (nth i reqs []))
      (left_over (t_width (d_type d)))
      (repeat (d_fill d) (N.to_nat (prodw (d_chunks d)))) (st, fun _ => []) m1 ->
    s3_write_halted d threads estimate src off n st (fst m1).
Inductive s3_sh_write_halted (sd : sharded) (threads : N) (estimate : Z) (src : source) (off n : shape)
    (st : store) : store -> Prop :=
| s3_sh_write_halted_groups groups m1 :
    (let! reqs := begin_request (sd_base sd) off n in
     if negb (can_write (d_mode (sd_base sd))) then Throw EInvalidArgument else
     let! cps := chunks_per_shard (sd_shard sd) (d_chunks (sd_base sd)) in
     group_chunks cps reqs) = Ok groups ->
    foreach_halted threads estimate (List.length groups)
      (fun _ i => s3_shard_write_unit_code sd src off n (nth i groups ([], [])))
      (left_over (t_width (d_type (sd_base sd))))
      (repeat (d_fill (sd_base sd)) (N.to_nat (prodw (d_chunks (sd_base sd))))) (st, fun _ => []) m1 ->
    s3_sh_write_halted sd threads estimate src off n st (fst m1).
