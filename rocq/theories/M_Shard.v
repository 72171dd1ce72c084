(** Model of include/z5/util/sharding.hxx: addressing of inner chunks and the
    shard file layout. *)
From Verif Require Import M_Base M_Bytes M_Crc.

(** SHARD_EMPTY, include/z5/util/sharding.hxx:30. *)
Definition SHARD_EMPTY : N := W64 - 1.

(** ShardEntry, include/z5/util/sharding.hxx:32-38. *)
Record entry := Entry { e_offset : N; e_nbytes : N }.
Definition entry_empty (e : entry) : bool :=
  (e_offset e =? SHARD_EMPTY) || (e_nbytes e =? SHARD_EMPTY).

(** chunksPerShard, include/z5/util/sharding.hxx:41-48.  Division by zero and
    reading past the inner shape are undefined. *)
Fixpoint chunks_per_shard (shardShape innerShape : shape) : outcome shape :=
  match shardShape, innerShape with
  | [], _ => Ok []
  | s :: sr, i :: ir =>
      if i =? 0 then UB
      else let! r := chunks_per_shard sr ir in Ok (s / i :: r)
  | _ :: _, [] => UB
  end.

(** numShardSlots, include/z5/util/sharding.hxx:50-53. *)
Definition num_shard_slots (cps : shape) : N := prodw cps.

(** shardId, include/z5/util/sharding.hxx:56-63. *)
Fixpoint shard_id (innerId cps : shape) : outcome shape :=
  match innerId, cps with
  | [], _ => Ok []
  | i :: ir, c :: cr =>
      if c =? 0 then UB
      else let! r := shard_id ir cr in Ok (i / c :: r)
  | _ :: _, [] => UB
  end.

(** The loop of shardSlot, include/z5/util/sharding.hxx:66-73. *)
Fixpoint shard_slot_loop (slot : N) (innerId cps : shape) : outcome N :=
  match innerId, cps with
  | [], _ => Ok slot
  | i :: ir, c :: cr =>
      if c =? 0 then UB
      else shard_slot_loop (addw (mulw slot c) (i mod c)) ir cr
  | _ :: _, [] => UB
  end.
Definition shard_slot (innerId cps : shape) : outcome N := shard_slot_loop 0 innerId cps.

(** The entry loop of parseShardIndex, include/z5/util/sharding.hxx:117-128:
    slots s, s+1, ...; [None] is the early return false. *)
Fixpoint parse_entries (shard : bytes) (indexStart : N) (s : N) (n : nat)
    : outcome (option (list entry)) :=
  match n with
  | O => Ok (Some [])
  | S m =>
      let p := indexStart + 16 * s in
      let! off := read_le64 shard p in
      let! nb := read_le64 shard (p + 8) in
      let e := Entry off nb in
      if negb (entry_empty e) && ((indexStart <? off) || (indexStart - off <? nb))
      then Ok None
      else
        let! r := parse_entries shard indexStart (s + 1) m in
        Ok (match r with Some es => Some (e :: es) | None => None end)
  end.

(** parseShardIndex, include/z5/util/sharding.hxx:104-130: [None] is false.
    Simplified: 16 * nSlots + 4 does not wrap (a shard with 2^60 slots cannot be
    held in memory). *)
Definition parse_shard_index (shard : bytes) (nSlots : N) : outcome (option (list entry)) :=
  let footer := 16 * nSlots + 4 in
  if lenN shard <? footer then Ok None
  else
    let indexStart := lenN shard - footer in
    let! storedCrc := read_le32 shard (lenN shard - 4) in
    let! index := read_bytes shard indexStart (16 * nSlots) in
    if negb (crc32c index 0 =? storedCrc) then Ok None
    else parse_entries shard indexStart 0 (N.to_nat nSlots).

(** extractShardBlobs, include/z5/util/sharding.hxx:133-149. *)
Fixpoint extract_shard_blobs (shard : bytes) (entries : list entry) : outcome (list bytes) :=
  match entries with
  | [] => Ok []
  | e :: es =>
      let! b := if entry_empty e then Ok [] else read_bytes shard (e_offset e) (e_nbytes e) in
      let! r := extract_shard_blobs shard es in
      Ok (b :: r)
  end.

(** The data region loop of buildShard, include/z5/util/sharding.hxx:159-168:
    [size] is out.size(). *)
Fixpoint shard_entries (size : N) (blobs : list bytes) : list entry :=
  match blobs with
  | [] => []
  | b :: r =>
      match b with
      | [] => Entry SHARD_EMPTY SHARD_EMPTY :: shard_entries size r
      | _ => Entry size (lenN b) :: shard_entries (size + lenN b) r
      end
  end.

(** The index bytes, include/z5/util/sharding.hxx:171-176. *)
Definition index_bytes (es : list entry) : bytes :=
  flat_map (fun e => write_le64 (e_offset e) ++ write_le64 (e_nbytes e)) es.

(** buildShard, include/z5/util/sharding.hxx:152-179. *)
Definition build_shard (blobs : list bytes) : bytes :=
  let index := index_bytes (shard_entries 0 blobs) in
  concat blobs ++ index ++ write_le32 (crc32c index 0).

(** allSlotsEmpty, include/z5/util/sharding.hxx:182-189. *)
Definition all_slots_empty (blobs : list bytes) : bool :=
  forallb (fun b => match b with [] => true | _ => false end) blobs.
