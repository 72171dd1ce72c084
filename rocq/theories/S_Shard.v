(** Specification vocabulary for shards. *)
From Verif Require Import M_Base S_Array S_Bytes S_Crc.

(** [b] is obtained from [a] by changing at most 32 consecutive bits (bits of a
    byte counted from the least significant one). *)
Definition burst (a b : bytes) : Prop :=
  exists p e1 e2 q, message_bits a = p ++ e1 ++ q /\ message_bits b = p ++ e2 ++ q /\
    length e1 = length e2 /\ (length e1 <= 32)%nat.

(** Position of an inner chunk: shard coordinate and position inside the shard,
    per axis. *)
Definition shard_of (cps id : list N) : list N := map2 N.div id cps.
Definition pos_in_shard (cps id : list N) : list N := map2 N.modulo id cps.
