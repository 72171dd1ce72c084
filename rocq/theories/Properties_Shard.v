(** Properties C15 - C19 and the parsing part of C20: checksum and shard files. *)
From Verif Require Import M_Base S_Array S_Bytes S_Crc S_Shard M_Bytes M_Crc M_Shard
  P_Base P_Bytes P_Crc P_Shard.

(** C15: the checksum is the reflected remainder of the polynomial division. *)
Theorem C15_checksum_is_crc32c data : all_bytes data -> crc32c data 0 = crc32c_spec data.
Proof. exact (@crc32c_is_castagnoli data). Qed.
Print Assumptions C15_checksum_is_crc32c.

Theorem C15_checksum_continues a b seed : crc32c (a ++ b) seed = crc32c b (crc32c a seed).
Proof. exact (@crc32c_continue a b seed). Qed.
Print Assumptions C15_checksum_continues.

(** The standard check value, CRC-32C("123456789") = E3069283. *)
Example C15_case : let m := [49; 50; 51; 52; 53; 54; 55; 56; 57] in
  all_bytes m /\ crc32c m 0 = 0xE3069283 /\ crc32c_spec m = 0xE3069283.
Proof. split; [repeat constructor|]. split; vm_compute; reflexivity. Qed.

(** C16: error bursts of at most 32 bits change the checksum. *)
Theorem C16_burst_detected a b p e1 e2 q : all_bytes a -> all_bytes b -> a <> b ->
  message_bits a = p ++ e1 ++ q -> message_bits b = p ++ e2 ++ q ->
  length e1 = length e2 -> (length e1 <= 32)%nat ->
  crc32c a 0 <> crc32c b 0.
Proof. exact (@crc32c_burst a b p e1 e2 q). Qed.
Print Assumptions C16_burst_detected.

(** A burst across three bytes. *)
Example C16_case : exists p e1 e2 q,
  all_bytes [10; 20; 30; 40] /\ all_bytes [10; 148; 225; 41] /\
  message_bits [10; 20; 30; 40] = p ++ e1 ++ q /\ message_bits [10; 148; 225; 41] = p ++ e2 ++ q /\
  length e1 = length e2 /\ (length e1 <= 32)%nat.
Proof.
  exists (firstn 15 (message_bits [10; 20; 30; 40])),
         (firstn 10 (skipn 15 (message_bits [10; 20; 30; 40]))),
         (firstn 10 (skipn 15 (message_bits [10; 148; 225; 41]))),
         (skipn 25 (message_bits [10; 20; 30; 40])).
  repeat split; try (repeat constructor; fail); vm_compute; repeat constructor.
Qed.

(** C17: inner chunk <-> (shard, slot). *)
Theorem C17_shard_addressing cps : Forall (fun c => 0 < c) cps -> prod cps <= W64 ->
  (forall a, length a = length cps ->
     exists slot, shard_id a cps = Ok (shard_of cps a) /\ shard_slot a cps = Ok slot /\
       slot = rowmajor cps (pos_in_shard cps a) /\ slot < prod cps) /\
  (forall a b, length a = length cps -> length b = length cps ->
     shard_id a cps = shard_id b cps -> shard_slot a cps = shard_slot b cps -> a = b) /\
  (forall sid slot, length sid = length cps -> slot < prod cps ->
     exists a, length a = length cps /\ shard_id a cps = Ok sid /\ shard_slot a cps = Ok slot).
Proof. exact (@shard_addressing cps). Qed.
Print Assumptions C17_shard_addressing.

Example C17_case : Forall (fun c => 0 < c) [2; 3; 4] /\ prod [2; 3; 4] <= W64 /\
  shard_id [5; 7; 9] [2; 3; 4] = Ok [2; 2; 2] /\ shard_slot [5; 7; 9] [2; 3; 4] = Ok 17.
Proof. repeat split; try (repeat constructor; fail). vm_compute. discriminate. Qed.

(** C18: a shard returns the blobs it was built from, slot by slot. *)
Theorem C18_shard_roundtrip blobs : lenN (concat blobs) < W64 - 1 ->
  exists es, parse_shard_index (build_shard blobs) (lenN blobs) = Ok (Some es) /\
    extract_shard_blobs (build_shard blobs) es = Ok blobs /\
    Forall2 (fun e b => entry_empty e = true <-> b = []) es blobs.
Proof. exact (@shard_roundtrip blobs). Qed.
Print Assumptions C18_shard_roundtrip.

Example C18_case : lenN (concat [[1; 2; 3]; []; [4]; [5; 6]]) < W64 - 1 /\
  lenN (build_shard [[1; 2; 3]; []; [4]; [5; 6]]) = 74.
Proof. split; vm_compute; reflexivity. Qed.

(** C19: arbitrary bytes. *)
Theorem C19_shard_parse_safe shard n :
  parse_shard_index shard n = Ok None \/
  exists es blobs, parse_shard_index shard n = Ok (Some es) /\ lenN es = n /\
    16 * n + 4 <= lenN shard /\
    Forall (fun e => entry_empty e = false ->
              e_offset e + e_nbytes e <= lenN shard - (16 * n + 4)) es /\
    extract_shard_blobs shard es = Ok blobs /\ lenN blobs = n.
Proof. exact (@parse_shard_safe shard n). Qed.
Print Assumptions C19_shard_parse_safe.

(** Both cases occur; here with an entry pointing behind the data (rejected). *)
Example C19_case :
  let bad := index_bytes [Entry 0 3] in
  parse_shard_index ([7; 7] ++ bad ++ write_le32 (crc32c bad 0)) 1 = Ok None /\
  let good := index_bytes [Entry 1 1] in
  parse_shard_index ([7; 7] ++ good ++ write_le32 (crc32c good 0)) 1 = Ok (Some [Entry 1 1]).
Proof. split; vm_compute; reflexivity. Qed.

(** C20: damaged footers are rejected, whatever happened to the data region. *)
Theorem C20_damaged_index_rejected data data' footer footer' n es :
  lenN footer = 16 * n + 4 -> all_bytes footer -> all_bytes footer' ->
  parse_shard_index (data ++ footer) n = Ok (Some es) ->
  burst footer footer' -> footer <> footer' ->
  parse_shard_index (data' ++ footer') n = Ok None.
Proof. exact (@damaged_index_rejected data data' footer footer' n es). Qed.
Print Assumptions C20_damaged_index_rejected.

(** One flipped bit in the offset of the second slot. *)
Example C20_case :
  let footer := skipn 4 (build_shard [[1; 2; 3]; [4]]) in
  let footer' := set_nth 16 footer 2 in
  lenN footer = 16 * 2 + 4 /\ all_bytes footer /\ all_bytes footer' /\
  parse_shard_index ([1; 2; 3; 4] ++ footer) 2 = Ok (Some [Entry 0 3; Entry 3 1]) /\
  burst footer footer' /\ footer <> footer'.
Proof.
  vm_compute build_shard. repeat split; try (repeat constructor; fail).
  - exists (firstn 128 (message_bits (skipn 4 (build_shard [[1; 2; 3]; [4]])))),
      [true; true], [false; true],
      (skipn 130 (message_bits (skipn 4 (build_shard [[1; 2; 3]; [4]])))).
    repeat split; try (vm_compute; reflexivity). vm_compute. repeat constructor.
  - vm_compute. discriminate.
Qed.
