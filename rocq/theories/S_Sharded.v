(** Specification of sharded datasets. *)
From Verif Require Import M_Base M_Text M_Key M_View M_Format M_Mode M_Shard M_Dataset M_Sharded M_Access
  S_Array S_Grid S_Bytes S_Text S_Format S_Shard S_Dataset S_Access.

(** What the code needs of a sharded dataset: zarr, a shard is a positive number of
    inner chunks along each axis, no encoded chunk is empty, and a shard's size
    fits into size_t. *)
Record sharded_ok (sd : sharded) : Prop := {
  so_base : dataset_ok (sd_base sd);
  so_zarr : d_zarr (sd_base sd) = true;
  so_cps : all3 (fun n c b => 0 < c /\ n = c * b) (sd_shard sd) (sd_cps sd) (d_chunks (sd_base sd));
  so_blob : exists m, prod (sd_cps sd) * m < W64 - 1 /\
    forall data, buffer_of (t_width (d_type (sd_base sd))) (prod (d_chunks (sd_base sd))) data ->
      forall e, stored_as (d_codec (sd_base sd)) (List.concat data) e -> 0 < lenN e /\ lenN e <= m
}.

(** Running a history through the API. *)
Definition run_sharded_op (sd : sharded) (o : array_op) : action unit :=
  match o with
  | AWrite off n src => sh_write_request sd src off n
  | AChunk c data => sh_write_chunk sd c data false
  | ARemove c => sh_remove_chunk sd c
  end.
Definition run_sharded_ops (sd : sharded) (ops : list array_op) : action unit :=
  foldS (fun _ o => run_sharded_op sd o) ops tt.

(** Chunk operations of a sharded dataset; there is no varlen variant. *)
Definition fixed_op (o : chunk_op) : Prop := match o with OpVarlen _ _ => False | _ => True end.
Definition run_shard_op (sd : sharded) (o : chunk_op) : action unit :=
  match o with
  | OpWrite c data => sh_write_chunk sd c data false
  | OpVarlen c data => sh_write_chunk sd c data true
  | OpRemove c => sh_remove_chunk sd c
  end.
Definition run_shard_ops (sd : sharded) (ops : list chunk_op) : action unit :=
  foldS (fun _ o => run_shard_op sd o) ops tt.

(** The key of the shard that contains inner chunk [c]. *)
Definition shard_key (sd : sharded) (c : shape) : string :=
  chunk_key (d_key (sd_base sd)) (shard_of (sd_cps sd) c).

(** Every call that modifies chunks of a sharded dataset, with arbitrary arguments. *)
Inductive sharded_call :=
| SCallWrite (off n : shape) (src : source)
| SCallChunk (ids : shape) (data : list cell) (varlen : bool)
| SCallRemove (ids : shape).
Definition run_sharded_call (sd : sharded) (c : sharded_call) : action unit :=
  match c with
  | SCallWrite off n src => sh_write_request sd src off n
  | SCallChunk ids data vl => sh_write_chunk sd ids data vl
  | SCallRemove ids => sh_remove_chunk sd ids
  end.

(** The shard of chunk [c] is stored but its index is not accepted. *)
Definition corrupt (sd : sharded) (st : store) (c : shape) : Prop :=
  exists bytes, st (shard_key sd c) = Some bytes /\ parse_shard_index bytes (prod (sd_cps sd)) = Ok None.

(** [st2] is [st1] with the bytes of some shards replaced by corrupt ones. *)
Definition damaged (sd : sharded) (st1 st2 : store) : Prop :=
  forall c, valid_chunk (d_shape (sd_base sd)) (d_chunks (sd_base sd)) c ->
    st2 (shard_key sd c) = st1 (shard_key sd c) \/ corrupt sd st2 c.

(** A dataset of either kind. *)
Inductive layout := Plain (d : dataset) | Shards (sd : sharded).
Definition base (l : layout) : dataset := match l with Plain d => d | Shards sd => sd_base sd end.
Definition layout_ok (l : layout) : Prop :=
  match l with Plain d => dataset_ok d | Shards sd => sharded_ok sd end.
Definition layout_empty (l : layout) (st : store) : Prop :=
  forall c, valid_chunk (d_shape (base l)) (d_chunks (base l)) c ->
    match l with
    | Plain d => st (chunk_key (d_key d) c) = None
    | Shards sd => st (shard_key sd c) = None
    end.
Definition run_layout (l : layout) (ops : list array_op) : action unit :=
  match l with Plain d => run_array_ops d ops | Shards sd => run_sharded_ops sd ops end.
Definition read_layout (l : layout) (st : store) (ov : view) (off : shape) (out : list cell)
    : outcome (list cell) :=
  match l with
  | Plain d => read_subarray d st ov off out
  | Shards sd => sh_read_subarray sd st ov off out
  end.
(** Writes of sub-arrays and scalars: the operations that do not mention chunks. *)
Definition region_op (o : array_op) : Prop := match o with AWrite _ _ _ => True | _ => False end.
