(** Specification of removals from sharded datasets. *)
From Verif Require Import M_Base M_Key M_Format M_Mode M_Dataset M_Sharded M_Functions S_Array S_Grid S_Bytes S_Format S_Dataset S_Access S_Sharded S_Functions.

(** Chunk [c] shows the contents [r] to readers. *)
Definition shows (sd : sharded) (st : store) (c : shape) (r : option (bool * list cell)) : Prop :=
  match r with
  | None => sh_chunk_exists sd st c = Ok false
  | Some (_, data) => sh_chunk_exists sd st c = Ok true /\
      forall out, buffer_of (t_width (d_type (sd_base sd))) (prod (d_chunks (sd_base sd))) out ->
        sh_read_chunk sd st c out = Ok (false, data)
  end.

(** [st] is what chunk operations [ops] left of a new sharded dataset. *)
Record shard_history (sd : sharded) (ops : list chunk_op) (st : store) : Prop := {
  sh_ok : sharded_ok sd;
  sh_ops : Forall (fun o => op_ok (sd_base sd) o /\ fixed_op o) ops;
  sh_small : prod (chunk_counts (d_shape (sd_base sd)) (d_chunks (sd_base sd))) < W64;
  sh_run : can_write (d_mode (sd_base sd)) = true /\
    exists st0, (forall c, valid_chunk (d_shape (sd_base sd)) (d_chunks (sd_base sd)) c -> st0 (shard_key sd c) = None) /\
      run_shard_ops sd ops st0 = (st, Ok tt)
}.
