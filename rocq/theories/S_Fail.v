(** Specification of sub-array writes that fail. *)
From Verif Require Import M_Base M_Text M_Key M_View M_N5Header M_Format M_Mode M_Dataset M_Sharded M_Access
  S_Array S_Grid S_Bytes S_Text S_Format S_Dataset S_Access S_File S_Sharded.

(** Writing the region needs the old contents of chunk [c]: the region does not
    contain the whole chunk, or (zarr) the chunk is stored with padding. *)
Definition must_merge (d : dataset) (off n c : shape) : Prop :=
  (exists x, in_chunk (d_shape d) (d_chunks d) c x /\ ~ in_box off n x) \/
  (d_zarr d = true /\ chunk_extent (d_shape d) (d_chunks d) c <> d_chunks d).

(** The directory with the file of chunk [c] and no other one. *)
Definition only_file (d : dataset) (c : shape) (st : store) : store := fun k =>
  if String.eqb k (chunk_key (d_key d) c) then st k else None.

(** The directory with the shard of inner chunk [c] and no other one. *)
Definition only_shard (sd : sharded) (c : shape) (st : store) : store := fun k =>
  if String.eqb k (shard_key sd c) then st k else None.
