(** Model of include/z5/generic/sharded_dataset.hxx over the directory of
    include/z5/filesystem/store.hxx. *)
From Verif Require Import M_Base M_Text M_Key M_Blocking M_Bytes M_N5Header M_Format M_Mode M_Shard M_Dataset.

(** ShardedDataset members, include/z5/generic/sharded_dataset.hxx:38-47: the base
    dataset plus shardShape_, chunksPerShard_ and nSlots_. *)
Record sharded := Sharded {
  sd_base : dataset;
  sd_shard : shape;         (* shardShape_ *)
  sd_cps : shape            (* chunksPerShard_ *)
}.

(** ShardedDataset::ShardedDataset, include/z5/generic/sharded_dataset.hxx:38-47;
    the constructor forces isZarr. *)
Definition open_sharded (d : dataset) (shardShape : shape) : outcome sharded :=
  let! cps := chunks_per_shard shardShape (d_chunks d) in
  let k := d_key d in
  Ok (Sharded (Dataset (d_shape d) (d_chunks d)
                       (KeyConfig true (k_delim k) (k_format k) (k_encoding k))
                       (d_type d) (d_fill d) (d_codec d) (d_mode d))
              shardShape cps).

(** nSlots_. *)
Definition sd_slots (sd : sharded) : N := num_shard_slots (sd_cps sd).

(** The shard's handle ChunkHandleType(handle_, shardCoord, shardShape_, shape()),
    used at include/z5/generic/sharded_dataset.hxx:179,201,229,273. *)
Definition shard_handle (sd : sharded) (coord : shape) : outcome chunk_handle :=
  chunk_handle_of (sd_base sd) (sd_shard sd) coord.

(** readShardBlobs, include/z5/generic/sharded_dataset.hxx:171-192. *)
Definition read_shard_blobs (sd : sharded) (st : store) (coord : shape) : outcome (list bytes) :=
  let! h := shard_handle sd coord in
  match store_read st (ch_key h) with
  | None => Ok (repeat [] (N.to_nat (sd_slots sd)))
  | Some b =>
      let! oe := parse_shard_index b (sd_slots sd) in
      match oe with
      | None => Throw ERuntime
      | Some es => extract_shard_blobs b es
      end
  end.

(** readShardRaw, include/z5/generic/sharded_dataset.hxx:197-216: [None] if the
    shard is absent, else the shard bytes and (offset, nbytes) per slot, (0, 0)
    for empty slots. *)
Definition read_shard_raw (sd : sharded) (st : store) (coord : shape)
    : outcome (option (bytes * list (N * N))) :=
  let! h := shard_handle sd coord in
  match store_read st (ch_key h) with
  | None => Ok None
  | Some b =>
      let! oe := parse_shard_index b (sd_slots sd) in
      match oe with
      | None => Throw ERuntime
      | Some es =>
          Ok (Some (b, map (fun e => if entry_empty e then (0, 0)
                                     else (e_offset e, e_nbytes e)) es))
      end
  end.

(** writeShardBlobs, include/z5/generic/sharded_dataset.hxx:222-237. *)
Definition write_shard_blobs (sd : sharded) (coord : shape) (blobs : list bytes) : action unit :=
  if negb (can_write (d_mode (sd_base sd))) then pure (Throw EInvalidArgument)
  else
    do! h <- pure (shard_handle sd coord) in
    if all_slots_empty blobs then store_erase (ch_key h)
    else store_write (d_key (sd_base sd)) (ch_key h) (build_shard blobs).

(** makeChunkBlob, include/z5/generic/sharded_dataset.hxx:240-245: [None] is the
    return value false. *)
Definition make_chunk_blob (sd : sharded) (ids : shape) (data : list cell)
    : outcome (option bytes) :=
  let d := sd_base sd in
  let! h := chunk_handle_of d (d_chunks d) ids in
  data_to_buffer (d_zarr d) (d_type d) (d_codec d) (d_fill d) (d_chunks d) (ch_bounded h)
                 data false 0.

(** readShard, include/z5/generic/sharded_dataset.hxx:270-281. *)
Definition read_shard (sd : sharded) (st : store) (ids : shape)
    : outcome (option (bytes * list entry)) :=
  let! coord := shard_id ids (sd_cps sd) in
  let! h := shard_handle sd coord in
  match store_read st (ch_key h) with
  | None => Ok None
  | Some b =>
      let! oe := parse_shard_index b (sd_slots sd) in
      match oe with None => Throw ERuntime | Some es => Ok (Some (b, es)) end
  end.

(** writeInnerBlob, include/z5/generic/sharded_dataset.hxx:286-298 (the mutex is the
    subject of the concurrency model). *)
Definition write_inner_blob (sd : sharded) (ids : shape) (blob : option bytes) : action unit :=
  do! coord <- pure (shard_id ids (sd_cps sd)) in
  do! slot <- pure (shard_slot ids (sd_cps sd)) in
  do! blobs <- reading (fun st => read_shard_blobs sd st coord) in
  do! blobs' <- pure (setN blobs slot (match blob with Some b => b | None => [] end)) in
  write_shard_blobs sd coord blobs'.

(** writeChunk, include/z5/generic/sharded_dataset.hxx:53-66, with checkChunk (lines
    300-307). *)
Definition sh_write_chunk (sd : sharded) (ids : shape) (data : list cell) (isVarlen : bool)
    : action unit :=
  let d := sd_base sd in
  if negb (can_write (d_mode d)) then pure (Throw EInvalidArgument)
  else
    do! h <- pure (chunk_handle_of d (d_chunks d) ids) in
    do! bl <- pure (d_blocking d) in
    if negb (check_block bl (ch_ids h)) then pure (Throw ERuntime)
    else if isVarlen then pure (Throw ERuntime)
    else
      do! blob <- pure (make_chunk_blob sd ids data) in
      write_inner_blob sd ids blob.

(** readRawChunk, include/z5/generic/sharded_dataset.hxx:75-89. *)
Definition sh_read_raw_chunk (sd : sharded) (st : store) (ids : shape) : outcome bytes :=
  let! r := read_shard sd st ids in
  match r with
  | None => Ok []
  | Some (b, es) =>
      let! slot := shard_slot ids (sd_cps sd) in
      let! e := getN es slot in
      if entry_empty e then Ok [] else read_bytes b (e_offset e) (e_nbytes e)
  end.

(** readChunk, include/z5/generic/sharded_dataset.hxx:68-73. *)
Definition sh_read_chunk (sd : sharded) (st : store) (ids : shape) (out : list cell)
    : outcome (bool * list cell) :=
  let d := sd_base sd in
  let! b := sh_read_raw_chunk sd st ids in
  let! out' := decompress (d_codec d) (t_width (d_type d)) b out (prodw (d_chunks d)) in
  Ok (false, out').

(** chunkExists, include/z5/generic/sharded_dataset.hxx:97-104. *)
Definition sh_chunk_exists (sd : sharded) (st : store) (ids : shape) : outcome bool :=
  let! r := read_shard sd st ids in
  match r with
  | None => Ok false
  | Some (_, es) =>
      let! slot := shard_slot ids (sd_cps sd) in
      let! e := getN es slot in
      Ok (negb (entry_empty e))
  end.

(** removeChunk, include/z5/generic/sharded_dataset.hxx:257-259. *)
Definition sh_remove_chunk (sd : sharded) (ids : shape) : action unit :=
  write_inner_blob sd ids None.
