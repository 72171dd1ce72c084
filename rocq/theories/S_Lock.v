(** Specification of concurrent calls on one sharded dataset. *)
From Verif Require Import M_Base M_Text M_Key M_View M_Format M_Mode M_Shard M_Dataset M_Sharded M_Access M_Pool
  M_Parallel M_Lock S_Array S_Grid S_Bytes S_Dataset S_Access S_Sharded.

(** The code of a single chunk call. *)
Definition chunk_call_code (sd : sharded) (o : chunk_op) : call_code :=
  match o with
  | OpWrite c data => sh_write_chunk_code sd c data false
  | OpVarlen c data => sh_write_chunk_code sd c data true
  | OpRemove c => sh_remove_chunk_code sd c
  end.
(** The same, or a sub-array write. *)
Definition array_call_code (sd : sharded) (o : array_op) : call_code :=
  match o with
  | AWrite off n src => sh_write_request_code sd src off n
  | AChunk c data => sh_write_chunk_code sd c data false
  | ARemove c => sh_remove_chunk_code sd c
  end.

(** The calls in the order in which they returned, their results, and the calls made
    by one thread. *)
Definition log_calls {C} (log : list (nat * C * outcome unit)) : list C := map (fun e => snd (fst e)) log.
Definition log_results {C} (log : list (nat * C * outcome unit)) : list (outcome unit) := map snd log.
Definition log_of {C} (t : nat) (log : list (nat * C * outcome unit)) : list C :=
  map (fun e => snd (fst e)) (filter (fun e => Nat.eqb (fst (fst e)) t) log).

(** All threads have made all their calls. *)
Definition all_returned {C} (y : @system C) : Prop := Forall (fun t => t = (TIdle, [])) (y_threads y).
