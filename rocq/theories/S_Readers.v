(** Specification of readers that run while another client changes the array. *)
From Verif Require Import M_Base M_Text M_Key M_Blocking M_View M_Bytes M_Format
  M_Mode M_Shard M_Dataset M_Sharded M_Access M_Pool M_Parallel M_Lock M_Clients
  S_Array S_Grid S_Bytes S_Shard S_Dataset S_Access S_Sharded S_Lock S_Clients.

(** Calls that only read. *)
Definition read_only (c : client_call) : Prop := match c with KRead _ _ _ => True | KOp _ => False end.

(** The elements of shard [k] are those after the first [moment k] of the calls [cs]. *)
Definition patchwork (sd : sharded) (cs : list client_call) (a0 : shape -> cell) (moment : shape -> nat) : shape -> cell :=
  fun x => apply_ops (sd_base sd)
    (ops_of (firstn (moment (shard_of (sd_cps sd) (chunk_of (d_chunks (sd_base sd)) x))) cs)) a0 x.

(** The same for datasets without shards, chunk by chunk. *)
Definition chunk_patchwork (d : dataset) (cs : list client_call) (a0 : shape -> cell) (moment : shape -> nat) : shape -> cell :=
  fun x => apply_ops d (ops_of (firstn (moment (chunk_of (d_chunks d) x)) cs)) a0 x.

(** The reader notices that a file is empty: by the header of n5, or because the codec
    refuses. *)
Definition empty_rejected (d : dataset) : Prop :=
  d_zarr d = false \/
  (d_zarr d = true /\ cd_raw (d_codec d) = false /\ forall n, cd_dec (d_codec d) [] n = Throw ERuntime).

(** The elements of a region are shown except in the chunks [away]; nothing outside of
    the view is written. *)
Definition shows_except (d : dataset) (away : shape -> Prop) (a : shape -> cell) (ov : view) (off : shape) (out out' : list cell) : Prop :=
  lenN out' = lenN out /\
  (forall i, in_shape (v_shape ov) i -> away (chunk_of (d_chunks d) (vadd off i)) \/
     exists v, getN out' (v_off ov + lin (v_strides ov) i) = Ok v /\
       same_value d v (a (vadd off i)) /\ (t_float (d_type d) = false -> v = a (vadd off i))) /\
  (forall x, (forall i, in_shape (v_shape ov) i -> x <> v_off ov + lin (v_strides ov) i) -> getN out' x = getN out x).

(** Raw chunks of zarr: a file has no header and the codec is none. *)
Definition plain_bytes (d : dataset) : Prop := d_zarr d = true /\ cd_raw (d_codec d) = true.
