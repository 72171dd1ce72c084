(** Specification of readers of a dataset in an object store that another client
    changes. *)
From Verif Require Import M_Base M_Text M_Key M_Blocking M_View M_Bytes M_Format
  M_Mode M_Shard M_Dataset M_Sharded M_Access M_Pool M_Parallel M_Lock M_Clients M_S3Clients
  S_Array S_Grid S_Bytes S_Dataset S_Access S_Sharded S_Lock S_Clients S_Readers.

(** The code behind a call; reads are the same as in files. *)
Definition s3_body (d : dataset) (c : client_call) : call_body :=
  match c with
  | KRead ov off out => read_call d ov off out
  | KOp (AWrite off n src) => s3_write_call d src off n
  | KOp (AChunk c data) => s3_write_chunk_call d c data
  | KOp (ARemove c) => s3_remove_chunk_call d c
  end.
Definition s3_sharded_body (sd : sharded) (c : client_call) : call_body :=
  match c with
  | KRead ov off out => sh_read_call sd ov off out
  | KOp (AWrite off n src) => s3_sh_write_call sd src off n
  | KOp (AChunk c data) => s3_sh_write_chunk_call sd c data
  | KOp (ARemove c) => s3_sh_remove_chunk_call sd c
  end.

(** All elements of chunk [c] have the fill value. *)
Definition only_fill (d : dataset) (a : shape -> cell) (c : shape) : Prop :=
  forall x, in_shape (d_shape d) x -> chunk_of (d_chunks d) x = c -> same_value d (d_fill d) (a x).

(** Some of the calls [lo] to [hi] changes the chunk [c], and at some moment after the
    first [lo] calls and until the end of call [hi] it has the fill value everywhere. *)
Definition cleared (d : dataset) (cs : list client_call) (a0 : shape -> cell) (lo hi : nat) (c : shape) : Prop :=
  (exists i call, (lo <= i <= hi)%nat /\ nth_error cs i = Some call /\ changes d call c) /\
  exists j, (lo <= j <= S hi)%nat /\ only_fill d (apply_ops d (ops_of (firstn j cs)) a0) c.
