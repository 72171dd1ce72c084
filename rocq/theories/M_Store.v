(** Model of the generic dataset code over any chunk store: the template parameter
    STORE of include/z5/generic/dataset.hxx, include/z5/generic/sharded_dataset.hxx
    and the calls of include/z5/multiarray/array_access.hxx on such datasets.
    M_Dataset, M_Sharded and M_Access are the same code written for
    filesystem::ChunkStore; P_Store proves that they are the instance of this file
    for [fs_policy]. *)
From Verif Require Import M_Base M_Text M_Key M_Blocking M_View M_Bytes M_N5Header M_Format
  M_Mode M_Shard M_Dataset M_Sharded M_Access.

(** A call that works on an external state, which it may change even if it throws. *)
Notation act S A := (S -> S * outcome A).
Definition abind {S A B} (m : act S A) (f : A -> act S B) : act S B := fun s =>
  match m s with
  | (s', Ok a) => f a s'
  | (s', Throw e) => (s', Throw e)
  | (s', UB) => (s', UB)
  end.
Notation "'do^' x '<-' a 'in' b" := (abind a (fun x => b))
  (at level 200, x pattern, a at level 100, b at level 200, right associativity).
Definition aret {S A} (o : outcome A) : act S A := fun s => (s, o).
(** Loop [for (x : xs) acc = f(acc, x)]. *)
Fixpoint afold {S A B} (f : B -> A -> act S B) (xs : list A) (acc : B) : act S B :=
  match xs with
  | [] => aret (Ok acc)
  | x :: r => do^ acc' <- f acc x in afold f r acc'
  end.

(** ChunkStorePolicy, include/z5/generic/store.hxx:20-37, with exists() and remove()
    of the store's chunk handle; the argument is the chunk's key relative to the
    dataset, [p_write] also gets the key configuration of the chunk handle.
    Simplified: without the path functions. *)
Record policy (S : Type) := Policy {
  p_exists : string -> act S bool;                  (* Chunk::exists *)
  p_read : string -> act S (option bytes);          (* STORE::read, None is false *)
  p_write : key_config -> string -> bytes -> act S unit;
  p_erase : string -> act S unit;
  p_remove : string -> act S unit;                  (* Chunk::remove after the check of the mode *)
  p_headers : bool;                                 (* supportsN5HeaderIO *)
  p_header : string -> act S (option N)             (* readVarlenFromHeader, None is false *)
}.
Arguments p_exists {S}. Arguments p_read {S}. Arguments p_write {S}. Arguments p_erase {S}.
Arguments p_remove {S}. Arguments p_headers {S}. Arguments p_header {S}.

(** filesystem::ChunkStore, include/z5/filesystem/store.hxx:56-133, and Chunk::exists,
    Chunk::remove of include/z5/filesystem/handle.hxx:307-317. *)
Definition fs_policy : policy store := {|
  p_exists key := fun st => (st, Ok (match st key with None => false | Some _ => true end));
  p_read key := fun st => (st, Ok (store_read st key));
  p_write := store_write;
  p_erase := store_erase;
  p_remove := store_erase;
  p_headers := true;
  p_header key := fun st =>
    (st, match st key with None => UB | Some b => read_varlen_from_header b end)
|}.

Section Generic.
Context {S : Type} (P : policy S).

(** ** generic::Dataset *)

(** writeChunk, include/z5/generic/dataset.hxx:42-67. *)
Definition g_write_chunk (d : dataset) (ids : shape) (data : list cell)
    (isVarlen : bool) (varSize : N) : act S unit :=
  if negb (can_write (d_mode d)) then aret (Throw EInvalidArgument)
  else
    do^ h <- aret (chunk_handle_of d (d_chunks d) ids) in
    do^ _ <- aret (check_chunk d h isVarlen) in
    do^ ob <- aret (data_to_buffer (d_zarr d) (d_type d) (d_codec d) (d_fill d)
                      (d_chunks d) (ch_bounded h) data isVarlen varSize) in
    match ob with
    | None => p_erase P (ch_key h)
    | Some b => p_write P (d_key d) (ch_key h) b
    end.

(** readChunk, include/z5/generic/dataset.hxx:72-90. *)
Definition g_read_chunk (d : dataset) (ids : shape) (out : list cell) : act S (bool * list cell) :=
  do^ h <- aret (chunk_handle_of d (d_chunks d) ids) in
  do^ _ <- aret (check_chunk d h false) in
  do^ o <- p_read P (ch_key h) in
  match o with
  | None => aret (Throw ERuntime)
  | Some b => aret (buffer_to_data (d_zarr d) (d_type d) (d_codec d) (d_chunks d) b out)
  end.

(** readRawChunk, include/z5/generic/dataset.hxx:92-99. *)
Definition g_read_raw_chunk (d : dataset) (ids : shape) : act S bytes :=
  do^ h <- aret (chunk_handle_of d (d_chunks d) ids) in
  do^ o <- p_read P (ch_key h) in
  aret (Ok (match o with None => [] | Some b => b end)).

(** chunkExists, include/z5/generic/dataset.hxx:108-111. *)
Definition g_chunk_exists (d : dataset) (ids : shape) : act S bool :=
  do^ h <- aret (chunk_handle_of d (d_chunks d) ids) in
  p_exists P (ch_key h).

(** checkVarlenChunk, include/z5/generic/dataset.hxx:178-195. *)
Definition g_check_varlen (d : dataset) (ids : shape) : act S (bool * N) :=
  do^ h <- aret (chunk_handle_of d (d_chunks d) ids) in
  let size := prodw (ch_bounded h) in
  if p_headers P then
    if d_zarr d then aret (Ok (false, size))
    else
      do^ ex <- p_exists P (ch_key h) in
      if negb ex then aret (Ok (false, size))
      else
        do^ v <- p_header P (ch_key h) in
        aret (Ok (match v with None => (false, size) | Some n => (true, n) end))
  else aret (Ok (false, size)).

(** removeChunk, include/z5/generic/dataset.hxx:207-210. *)
Definition g_remove_chunk (d : dataset) (ids : shape) : act S unit :=
  do^ h <- aret (chunk_handle_of d (d_chunks d) ids) in
  if negb (can_write (d_mode d)) then aret (Throw EInvalidArgument)
  else p_remove P (ch_key h).

(** ** Sub-arrays of plain datasets, include/z5/multiarray/array_access.hxx *)

(** The body of readSubarrayPlain for one chunk, lines 97-152. *)
Definition g_read_unit (d : dataset) (ov : view) (off n : shape)
    (state : list cell * list cell) (c : shape) : act S (list cell * list cell) :=
  let '(buffer, out) := state in
  let w := t_width (d_type d) in
  do^ r <- aret (coords_in_roi (d_shape d) (d_chunks d) c off n) in
  let outView := subview ov (r_off_in_req r) (r_shape r) in
  do^ ex <- g_chunk_exists d c in
  if negb ex then
    do^ out' <- aret (fill_view out outView (d_fill d)) in aret (Ok (buffer, out'))
  else
    do^ cshape <- aret (get_chunk_shape d c) in
    let csize := prodw cshape in
    do^ dataBuffer <- g_read_raw_chunk d c in
    do^ hdr <- aret (if d_zarr d then Ok (prodw (d_chunks d), 0)
                     else let! h := read_n5_header dataBuffer in
                          let '(vl, sz, len) := h in
                          if vl : bool then Throw ERuntime else Ok (sz, len)) in
    let '(chunkStoreSize, headerLength) := hdr in
    let chunkSize := if chunkStoreSize =? csize then csize else prodw (d_chunks d) in
    let chunkShape := if chunkStoreSize =? csize then cshape else d_chunks d in
    let buffer1 := if chunkSize =? lenN buffer then buffer else resize w chunkSize buffer in
    do^ buffer2 <- aret (decompress (d_codec d) w (skipn (N.to_nat headerLength) dataBuffer)
                                    buffer1 chunkSize) in
    do^ buffer3 <- aret (if negb (d_zarr d) && (1 <? w) then reverse_first chunkSize buffer2
                         else Ok buffer2) in
    do^ out' <- aret (copy_view buffer3
                        (subview (make_view chunkShape) (r_off_in_chunk r) (r_shape r))
                        out outView) in
    aret (Ok (buffer3, out')).

(** readSubarray, lines 157-181, with readSubarrayPlain, lines 76-154. *)
Definition g_read_subarray (d : dataset) (ov : view) (off : shape) (out : list cell)
    : act S (list cell) :=
  do^ reqs <- aret (begin_request d off (v_shape ov)) in
  do^ r <- afold (g_read_unit d ov off (v_shape ov)) reqs
             (repeat (zero_cell (t_width (d_type d))) (N.to_nat (prodw (d_chunks d))), out) in
  aret (Ok (snd r)).

(** prepareChunkWriteBuffer, lines 193-235. *)
Definition g_prepare_chunk (d : dataset) (off n : shape) (c : shape) (src : source)
    (read_existing : list cell -> act S (bool * list cell)) (buffer : list cell)
    : act S (list cell) :=
  let w := t_width (d_type d) in
  let maxChunkSize := prodw (d_chunks d) in
  do^ r <- aret (coords_in_roi (d_shape d) (d_chunks d) c off n) in
  do^ cshape <- aret (get_chunk_shape d c) in
  let csize := prodw cshape in
  let pad := negb (csize =? maxChunkSize) && d_zarr d in
  let completeOvlp := r_complete r && negb pad in
  let chunkShape := if pad then d_chunks d else cshape in
  let chunkSize := if pad then maxChunkSize else csize in
  let buffer1 := if chunkSize =? lenN buffer then buffer else resize w chunkSize buffer in
  if completeOvlp then
    aret (fill_request src buffer1 (make_view chunkShape) (r_off_in_req r) (r_shape r))
  else
    do^ e <- read_existing buffer1 in
    let buffer2 := if fst e then snd e
                   else map (fun _ => d_fill d) (snd e) in
    aret (fill_request src buffer2 (subview (make_view chunkShape) (r_off_in_chunk r) (r_shape r))
                       (r_off_in_req r) (r_shape r)).

(** The readExisting callback of writePlainGeneric, lines 275-284. *)
Definition g_plain_existing (d : dataset) (c : shape) (buf : list cell) : act S (bool * list cell) :=
  do^ ex <- g_chunk_exists d c in
  if negb ex then aret (Ok (false, buf))
  else
    do^ r <- g_read_chunk d c buf in
    aret (if fst r then Throw ERuntime else Ok (true, snd r)).

(** The body of writePlainGeneric for one chunk, lines 267-287. *)
Definition g_write_unit (d : dataset) (src : source) (off n : shape)
    (buffer : list cell) (c : shape) : act S (list cell) :=
  do^ buffer' <- g_prepare_chunk d off n c src (g_plain_existing d c) buffer in
  do^ _ <- g_write_chunk d c buffer' false 0 in
  aret (Ok buffer').

(** writeSubarray, lines 496-521, and writeScalar
    (include/z5/multiarray/broadcast.hxx:18-50), with writePlainGeneric, lines
    253-288. *)
Definition g_write_request (d : dataset) (src : source) (off n : shape) : act S unit :=
  do^ reqs <- aret (begin_request d off n) in
  do^ _ <- afold (g_write_unit d src off n) reqs
             (repeat (d_fill d) (N.to_nat (prodw (d_chunks d)))) in
  aret (Ok tt).

(** ** generic::ShardedDataset, include/z5/generic/sharded_dataset.hxx *)

(** readShardBlobs, lines 171-192. *)
Definition g_read_shard_blobs (sd : sharded) (coord : shape) : act S (list bytes) :=
  do^ h <- aret (shard_handle sd coord) in
  do^ o <- p_read P (ch_key h) in
  match o with
  | None => aret (Ok (repeat [] (N.to_nat (sd_slots sd))))
  | Some b =>
      do^ oe <- aret (parse_shard_index b (sd_slots sd)) in
      match oe with
      | None => aret (Throw ERuntime)
      | Some es => aret (extract_shard_blobs b es)
      end
  end.

(** readShardRaw, lines 197-216. *)
Definition g_read_shard_raw (sd : sharded) (coord : shape) : act S (option (bytes * list (N * N))) :=
  do^ h <- aret (shard_handle sd coord) in
  do^ o <- p_read P (ch_key h) in
  match o with
  | None => aret (Ok None)
  | Some b =>
      do^ oe <- aret (parse_shard_index b (sd_slots sd)) in
      match oe with
      | None => aret (Throw ERuntime)
      | Some es =>
          aret (Ok (Some (b, map (fun e => if entry_empty e then (0, 0)
                                           else (e_offset e, e_nbytes e)) es)))
      end
  end.

(** writeShardBlobs, lines 222-237. *)
Definition g_write_shard_blobs (sd : sharded) (coord : shape) (blobs : list bytes) : act S unit :=
  if negb (can_write (d_mode (sd_base sd))) then aret (Throw EInvalidArgument)
  else
    do^ h <- aret (shard_handle sd coord) in
    if all_slots_empty blobs then p_erase P (ch_key h)
    else p_write P (d_key (sd_base sd)) (ch_key h) (build_shard blobs).

(** readShard, lines 270-281. *)
Definition g_read_shard (sd : sharded) (ids : shape) : act S (option (bytes * list entry)) :=
  do^ coord <- aret (shard_id ids (sd_cps sd)) in
  do^ h <- aret (shard_handle sd coord) in
  do^ o <- p_read P (ch_key h) in
  match o with
  | None => aret (Ok None)
  | Some b =>
      do^ oe <- aret (parse_shard_index b (sd_slots sd)) in
      match oe with None => aret (Throw ERuntime) | Some es => aret (Ok (Some (b, es))) end
  end.

(** writeInnerBlob, lines 286-298. *)
Definition g_write_inner_blob (sd : sharded) (ids : shape) (blob : option bytes) : act S unit :=
  do^ coord <- aret (shard_id ids (sd_cps sd)) in
  do^ slot <- aret (shard_slot ids (sd_cps sd)) in
  do^ blobs <- g_read_shard_blobs sd coord in
  do^ blobs' <- aret (setN blobs slot (match blob with Some b => b | None => [] end)) in
  g_write_shard_blobs sd coord blobs'.

(** writeChunk, lines 53-66. *)
Definition g_sh_write_chunk (sd : sharded) (ids : shape) (data : list cell) (isVarlen : bool)
    : act S unit :=
  let d := sd_base sd in
  if negb (can_write (d_mode d)) then aret (Throw EInvalidArgument)
  else
    do^ h <- aret (chunk_handle_of d (d_chunks d) ids) in
    do^ bl <- aret (d_blocking d) in
    if negb (check_block bl (ch_ids h)) then aret (Throw ERuntime)
    else if isVarlen then aret (Throw ERuntime)
    else
      do^ blob <- aret (make_chunk_blob sd ids data) in
      g_write_inner_blob sd ids blob.

(** readRawChunk, lines 75-89. *)
Definition g_sh_read_raw_chunk (sd : sharded) (ids : shape) : act S bytes :=
  do^ r <- g_read_shard sd ids in
  aret (match r with
        | None => Ok []
        | Some (b, es) =>
            let! slot := shard_slot ids (sd_cps sd) in
            let! e := getN es slot in
            if entry_empty e then Ok [] else read_bytes b (e_offset e) (e_nbytes e)
        end).

(** readChunk, lines 68-73. *)
Definition g_sh_read_chunk (sd : sharded) (ids : shape) (out : list cell) : act S (bool * list cell) :=
  let d := sd_base sd in
  do^ b <- g_sh_read_raw_chunk sd ids in
  do^ out' <- aret (decompress (d_codec d) (t_width (d_type d)) b out (prodw (d_chunks d))) in
  aret (Ok (false, out')).

(** chunkExists, lines 97-104. *)
Definition g_sh_chunk_exists (sd : sharded) (ids : shape) : act S bool :=
  do^ r <- g_read_shard sd ids in
  aret (match r with
        | None => Ok false
        | Some (_, es) =>
            let! slot := shard_slot ids (sd_cps sd) in
            let! e := getN es slot in
            Ok (negb (entry_empty e))
        end).

(** removeChunk, lines 257-259. *)
Definition g_sh_remove_chunk (sd : sharded) (ids : shape) : act S unit :=
  g_write_inner_blob sd ids None.

(** ** Sub-arrays of sharded datasets, include/z5/multiarray/array_access.hxx *)

(** processShard of writeShardedGeneric, lines 361-393. *)
Definition g_shard_write_unit (sd : sharded) (src : source) (off n : shape)
    (buffer : list cell) (g : shape * list shape) : act S (list cell) :=
  do^ blobs <- g_read_shard_blobs sd (fst g) in
  do^ r <- aret (foldM (shard_write_chunk sd src off n) (snd g) (buffer, blobs)) in
  do^ _ <- g_write_shard_blobs sd (fst g) (snd r) in
  aret (Ok (fst r)).

(** writeSubarray / writeScalar with writeShardedGeneric, lines 327-404. *)
Definition g_sh_write_request (sd : sharded) (src : source) (off n : shape) : act S unit :=
  let d := sd_base sd in
  do^ reqs <- aret (begin_request d off n) in
  if negb (can_write (d_mode d)) then aret (Throw EInvalidArgument)
  else
    do^ cps <- aret (chunks_per_shard (sd_shard sd) (d_chunks d)) in
    do^ groups <- aret (group_chunks cps reqs) in
    do^ _ <- afold (g_shard_write_unit sd src off n) groups
               (repeat (d_fill d) (N.to_nat (prodw (d_chunks d)))) in
    aret (Ok tt).

(** processShard of readSubarraySharded, lines 450-485. *)
Definition g_shard_read_unit (sd : sharded) (ov : view) (off n : shape)
    (state : list cell * list cell) (g : shape * list shape) : act S (list cell * list cell) :=
  do^ raw <- g_read_shard_raw sd (fst g) in
  aret (foldM (shard_read_chunk sd raw ov off n) (snd g) state).

(** readSubarray with readSubarraySharded, lines 419-493. *)
Definition g_sh_read_subarray (sd : sharded) (ov : view) (off : shape) (out : list cell)
    : act S (list cell) :=
  let d := sd_base sd in
  do^ reqs <- aret (begin_request d off (v_shape ov)) in
  do^ cps <- aret (chunks_per_shard (sd_shard sd) (d_chunks d)) in
  do^ groups <- aret (group_chunks cps reqs) in
  do^ r <- afold (g_shard_read_unit sd ov off (v_shape ov)) groups
             (repeat (zero_cell (t_width (d_type d))) (N.to_nat (prodw (d_chunks d))), out) in
  aret (Ok (snd r)).

End Generic.
