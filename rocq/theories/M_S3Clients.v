(** Clients of a dataset in an object store.  The functions are those of M_Parallel,
    M_Lock and M_Clients, which are templates over the store (include/z5/generic); an
    object is put as a whole, while a file is truncated and then written. *)
From Verif Require Import M_Base M_Text M_Key M_Blocking M_View M_Bytes M_Format
  M_Mode M_Shard M_Dataset M_Sharded M_Access M_Pool M_Parallel M_Lock M_Clients.

(** ChunkStore::write, include/z5/s3/store.hxx:34-39, with putObject,
    include/z5/s3/handle.hxx:226-242.  Simplified: a request takes effect at one moment
    and does not fail.  ChunkStore::read and chunk.exists() (store.hxx:25-32,
    handle.hxx:654-657) are [pread], ChunkStore::erase (store.hxx:41-44) is [pset] with
    [None]; deleting an object that is not there succeeds. *)
Definition put_code (key : string) (b : bytes) (k : code) : code := pset key (Some b) k.

(** writeChunk, include/z5/generic/dataset.hxx:42-67. *)
Definition s3_write_chunk_code (d : dataset) (c : shape) (data : list cell) (k : code) : code :=
  if negb (can_write (d_mode d)) then Ret (Throw EInvalidArgument)
  else
    plet (chunk_handle_of d (d_chunks d) c) (fun h =>
    plet (check_chunk d h false) (fun _ =>
    plet (data_to_buffer (d_zarr d) (d_type d) (d_codec d) (d_fill d) (d_chunks d) (ch_bounded h) data false 0)
      (fun ob => match ob with
                 | None => pset (ch_key h) None k
                 | Some b => put_code (ch_key h) b k
                 end))).

(** The body of writePlainGeneric, include/z5/multiarray/array_access.hxx:267-287, as in
    [write_unit_code]. *)
Definition s3_write_unit_code (d : dataset) (src : source) (off n c : shape) (buffer : list cell) : code :=
  plet (chunk_handle_of d (d_chunks d) c) (fun h =>
  pread (ch_key h) (fun f1 =>
  pread (ch_key h) (fun f2 =>
  plet (prepare_chunk d off n c src (existing_from d c f1 f2) buffer) (fun buffer' =>
  s3_write_chunk_code d c buffer' (Ret (Ok buffer')))))).

(** writeSubarray and writeScalar, include/z5/multiarray/array_access.hxx:496-521 and
    include/z5/multiarray/broadcast.hxx:18-50. *)
Definition s3_write_call (d : dataset) (src : source) (off n : shape) : call_body :=
  no_output
    (plet (begin_request d off n) (fun reqs =>
     foreach_sequential (fun _ => s3_write_unit_code d src off n) reqs
       (repeat (d_fill d) (N.to_nat (prodw (d_chunks d)))))).
(** writeChunk as a call. *)
Definition s3_write_chunk_call (d : dataset) (c : shape) (data : list cell) : call_body :=
  no_output (s3_write_chunk_code d c data (Ret (Ok []))).
(** removeChunk, include/z5/generic/dataset.hxx:207-210, with remove of the chunk,
    include/z5/s3/handle.hxx:640-647. *)
Definition s3_remove_chunk_call (d : dataset) (c : shape) : call_body := remove_chunk_call d c.

(** writeShardBlobs, include/z5/generic/sharded_dataset.hxx:222-237. *)
Definition s3_write_blobs_code (sd : sharded) (coord : shape) (blobs : list bytes) (k : code) : code :=
  if negb (can_write (d_mode (sd_base sd))) then Ret (Throw EInvalidArgument)
  else
    plet (shard_handle sd coord) (fun h =>
    if all_slots_empty blobs then pset (ch_key h) None k
    else put_code (ch_key h) (build_shard blobs) k).

(** processShard of writeShardedGeneric, include/z5/multiarray/array_access.hxx:361-393. *)
Definition s3_shard_write_unit_code (sd : sharded) (src : source) (off n : shape)
    (g : shape * list shape) (buffer : list cell) : code :=
  plet (shard_handle sd (fst g)) (fun h =>
  pread (ch_key h) (fun f =>
  plet (let! blobs := read_shard_blobs sd (only f) (fst g) in
        foldM (shard_write_chunk sd src off n) (snd g) (buffer, blobs)) (fun r =>
  s3_write_blobs_code sd (fst g) (snd r) (Ret (Ok (fst r)))))).

(** writeInnerBlob, include/z5/generic/sharded_dataset.hxx:286-298. *)
Definition s3_inner_blob_code (sd : sharded) (ids : shape) (blob : option bytes) : code :=
  plet (shard_id ids (sd_cps sd)) (fun coord =>
  plet (shard_slot ids (sd_cps sd)) (fun slot =>
  plet (shard_handle sd coord) (fun h =>
  pread (ch_key h) (fun f =>
  plet (read_shard_blobs sd (only f) coord) (fun blobs =>
  plet (setN blobs slot (match blob with Some b => b | None => [] end)) (fun blobs' =>
  s3_write_blobs_code sd coord blobs' (Ret (Ok [])))))))).

(** writeChunk, include/z5/generic/sharded_dataset.hxx:53-66, with checkChunk (lines
    300-307).  Simplified like [unguarded]: the mutex is not taken. *)
Definition s3_sh_write_chunk_call (sd : sharded) (ids : shape) (data : list cell) : call_body :=
  let d := sd_base sd in
  no_output
    (plet (if negb (can_write (d_mode d)) then Throw EInvalidArgument
           else
             let! h := chunk_handle_of d (d_chunks d) ids in
             let! bl := d_blocking d in
             if negb (check_block bl (ch_ids h)) then Throw ERuntime
             else make_chunk_blob sd ids data) (fun blob =>
     s3_inner_blob_code sd ids blob)).
(** removeChunk, include/z5/generic/sharded_dataset.hxx:257-259. *)
Definition s3_sh_remove_chunk_call (sd : sharded) (ids : shape) : call_body :=
  no_output (s3_inner_blob_code sd ids None).
(** writeSubarray with one thread, include/z5/multiarray/array_access.hxx:327-404. *)
Definition s3_sh_write_call (sd : sharded) (src : source) (off n : shape) : call_body :=
  no_output
    (plet (let! reqs := begin_request (sd_base sd) off n in
           if negb (can_write (d_mode (sd_base sd))) then Throw EInvalidArgument else
           let! cps := chunks_per_shard (sd_shard sd) (d_chunks (sd_base sd)) in
           group_chunks cps reqs) (fun groups =>
     foreach_sequential (fun _ g => s3_shard_write_unit_code sd src off n g) groups
       (repeat (d_fill (sd_base sd)) (N.to_nat (prodw (d_chunks (sd_base sd))))))).
