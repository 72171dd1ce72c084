(** Specification of clients that cannot change a dataset in an object store. *)
From Verif Require Import M_Base M_Text M_Key M_Blocking M_View M_Bytes M_Format
  M_Mode M_Shard M_Dataset M_Sharded M_Access M_Pool M_Parallel M_Lock M_Clients M_S3Clients
  S_Array S_Grid S_Bytes S_Dataset S_Access S_Sharded S_Lock S_Clients S_Quiet S_Readers S_S3Clients.

(** The code behind a call through some object of a dataset in the bucket. *)
Definition s3_any_body (c : any_call) : call_body :=
  match fst c with
  | inl d => s3_body d (snd c)
  | inr sd => s3_sharded_body sd (snd c)
  end.
