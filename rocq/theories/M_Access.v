(** Model of include/z5/multiarray/array_access.hxx and broadcast.hxx, single
    threaded (numberOfThreads == 1); the multi-threaded loops are modelled in
    M_Parallel. *)
From Verif Require Import M_Base M_Text M_Key M_Blocking M_View M_Bytes M_N5Header M_Format
  M_Mode M_Shard M_Dataset M_Sharded.

(** T() for a type of [w] bytes, include/z5/multiarray/array_access.hxx:95. *)
Definition zero_cell (w : N) : cell := repeat 0 (N.to_nat w).

(** std::vector<T>::resize(n), include/z5/multiarray/array_access.hxx:137,219: cut, or
    extend by T(). *)
Definition resize (w n : N) (buf : list cell) : list cell :=
  (firstn (N.to_nat n) buf ++ repeat (zero_cell w) (N.to_nat n - List.length buf))%list.

(** Upper bound for the number of iterations of makeRegularGrid, see [grid_loop]: an
    axis whose end is before its begin has one position.  The bound is exceeded only
    if the end is 2^64 - 1, then the C++ loop does not end. *)
Definition grid_fuel (lo hi : shape) : nat :=
  N.to_nat (fold_left N.mul (map2 (fun l h => N.max 1 (h + 1 - l)) lo hi) 1).

(** chunking.getBlocksOverlappingRoi(offset, shape, chunkRequests),
    include/z5/multiarray/array_access.hxx:172,513. *)
Definition chunk_requests (d : dataset) (off n : shape) : outcome (list shape) :=
  match blocks_overlapping
          (grid_fuel (elem_to_block (d_chunks d) off) (max_blocks (d_chunks d) off n))
          (d_chunks d) off n with
  | Some l => Ok l
  | None => UB
  end.

(** checkRequestShape + chunking, include/z5/multiarray/array_access.hxx:163-172,
    502-513; [off] is what roiBeginIter points to.  Simplified: checkRequestType (T
    equals the dataset's type) always holds. *)
Definition begin_request (d : dataset) (off n : shape) : outcome (list shape) :=
  let! _ := check_request (d_shape d) off n in
  let! _ := d_blocking d in
  chunk_requests d off n.

(** The body of readSubarrayPlain for one chunk,
    include/z5/multiarray/array_access.hxx:97-152.  [ov] is the output view into
    the buffer [out]; state: scratch buffer and output. *)
Definition read_unit (d : dataset) (st : store) (ov : view) (off n : shape)
    (state : list cell * list cell) (c : shape) : outcome (list cell * list cell) :=
  let '(buffer, out) := state in
  let w := t_width (d_type d) in
  let! r := coords_in_roi (d_shape d) (d_chunks d) c off n in
  let outView := subview ov (r_off_in_req r) (r_shape r) in
  let! ex := chunk_exists d st c in
  if negb ex then
    let! out' := fill_view out outView (d_fill d) in Ok (buffer, out')
  else
    let! cshape := get_chunk_shape d c in
    let csize := prodw cshape in
    let! dataBuffer := read_raw_chunk d st c in
    let! hdr := if d_zarr d then Ok (prodw (d_chunks d), 0)
                else let! h := read_n5_header dataBuffer in
                     let '(vl, sz, len) := h in
                     if vl : bool then Throw ERuntime else Ok (sz, len) in
    let '(chunkStoreSize, headerLength) := hdr in
    let chunkSize := if chunkStoreSize =? csize then csize else prodw (d_chunks d) in
    let chunkShape := if chunkStoreSize =? csize then cshape else d_chunks d in
    let buffer1 := if chunkSize =? lenN buffer then buffer else resize w chunkSize buffer in
    let! buffer2 := decompress (d_codec d) w (skipn (N.to_nat headerLength) dataBuffer)
                               buffer1 chunkSize in
    let! buffer3 := if negb (d_zarr d) && (1 <? w) then reverse_first chunkSize buffer2
                    else Ok buffer2 in
    let! out' := copy_view buffer3
                   (subview (make_view chunkShape) (r_off_in_chunk r) (r_shape r))
                   out outView in
    Ok (buffer3, out').

(** readSubarrayPlain, include/z5/multiarray/array_access.hxx:76-154, with the single
    threaded loop of forEachBuffered (lines 26-30). *)
Definition read_plain (d : dataset) (st : store) (ov : view) (off n : shape)
    (reqs : list shape) (out : list cell) : outcome (list cell) :=
  let w := t_width (d_type d) in
  let! r := foldM (read_unit d st ov off n) reqs
                  (repeat (zero_cell w) (N.to_nat (prodw (d_chunks d))), out) in
  Ok (snd r).

(** readSubarray on a plain dataset, include/z5/multiarray/array_access.hxx:157-181. *)
Definition read_subarray (d : dataset) (st : store) (ov : view) (off : shape)
    (out : list cell) : outcome (list cell) :=
  let! reqs := begin_request d off (v_shape ov) in
  read_plain d st ov off (v_shape ov) reqs out.

(** A request's data source, the fillRequest callback: makeCopyFillRequest
    (include/z5/multiarray/array_access.hxx:241-247) or the lambda of writeScalar
    (include/z5/multiarray/broadcast.hxx:36-40). *)
Inductive source :=
| FromView (v : view) (data : list cell)
| FromScalar (val : cell).

(** Calling fillRequest(dest, offsetInRequest, requestShape) on the buffer [buf]. *)
Definition fill_request (s : source) (buf : list cell) (dest : view) (oreq rsh : shape)
    : outcome (list cell) :=
  match s with
  | FromView v data => copy_view data (subview v oreq rsh) buf dest
  | FromScalar val => fill_view buf dest val
  end.

(** prepareChunkWriteBuffer, include/z5/multiarray/array_access.hxx:193-235.
    [read_existing] maps the sized buffer to (existed, buffer). *)
Definition prepare_chunk (d : dataset) (off n : shape) (c : shape) (src : source)
    (read_existing : list cell -> outcome (bool * list cell)) (buffer : list cell)
    : outcome (list cell) :=
  let w := t_width (d_type d) in
  let maxChunkSize := prodw (d_chunks d) in
  let! r := coords_in_roi (d_shape d) (d_chunks d) c off n in
  let! cshape := get_chunk_shape d c in
  let csize := prodw cshape in
  let pad := negb (csize =? maxChunkSize) && d_zarr d in
  let completeOvlp := r_complete r && negb pad in
  let chunkShape := if pad then d_chunks d else cshape in
  let chunkSize := if pad then maxChunkSize else csize in
  let buffer1 := if chunkSize =? lenN buffer then buffer else resize w chunkSize buffer in
  if completeOvlp then
    fill_request src buffer1 (make_view chunkShape) (r_off_in_req r) (r_shape r)
  else
    let! e := read_existing buffer1 in
    let buffer2 := if fst e then snd e
                   else map (fun _ => d_fill d) (snd e) in
    fill_request src buffer2 (subview (make_view chunkShape) (r_off_in_chunk r) (r_shape r))
                 (r_off_in_req r) (r_shape r).

(** The readExisting callback of writePlainGeneric,
    include/z5/multiarray/array_access.hxx:275-284. *)
Definition plain_existing (d : dataset) (st : store) (c : shape) (buf : list cell)
    : outcome (bool * list cell) :=
  let! ex := chunk_exists d st c in
  if negb ex then Ok (false, buf)
  else
    let! r := read_chunk d st c buf in
    if fst r then Throw ERuntime else Ok (true, snd r).

(** The body of writePlainGeneric for one chunk,
    include/z5/multiarray/array_access.hxx:267-287; maps the scratch buffer. *)
Definition write_unit (d : dataset) (src : source) (off n : shape)
    (buffer : list cell) (c : shape) : action (list cell) :=
  do! buffer' <- reading (fun st =>
                   prepare_chunk d off n c src (plain_existing d st c) buffer) in
  do! _ <- write_chunk d c buffer' false 0 in
  pure (Ok buffer').

(** writePlainGeneric, include/z5/multiarray/array_access.hxx:253-288. *)
Definition write_plain (d : dataset) (src : source) (off n : shape) (reqs : list shape)
    : action unit :=
  do! _ <- foldS (write_unit d src off n) reqs
                 (repeat (d_fill d) (N.to_nat (prodw (d_chunks d)))) in
  pure (Ok tt).

(** writeSubarray (include/z5/multiarray/array_access.hxx:496-521) and writeScalar
    (include/z5/multiarray/broadcast.hxx:18-50) on a plain dataset; [n] is the
    request shape (the shape of the input view). *)
Definition write_request (d : dataset) (src : source) (off n : shape) : action unit :=
  do! reqs <- pure (begin_request d off n) in
  write_plain d src off n reqs.

(** ** Sharded paths *)

(** Insert a chunk id into the ordered map of groupChunksByShard. *)
Fixpoint shape_ltb (a b : shape) : bool :=
  match a, b with
  | [], [] => false
  | [], _ :: _ => true
  | _ :: _, [] => false
  | x :: ar, y :: br => (x <? y) || ((x =? y) && shape_ltb ar br)
  end.
(** operator== on ShapeType. *)
Fixpoint shape_eqb (a b : shape) : bool :=
  match a, b with
  | [], [] => true
  | x :: ar, y :: br => (x =? y) && shape_eqb ar br
  | _, _ => false
  end.
(** shardGroups[key].push_back(c) on a std::map ordered by the keys. *)
Fixpoint group_insert (key c : shape) (g : list (shape * list shape)) : list (shape * list shape) :=
  match g with
  | [] => [(key, [c])]
  | (k, cs) :: r =>
      if shape_eqb key k then (k, (cs ++ [c])%list) :: r
      else if shape_ltb key k then (key, [c]) :: (k, cs) :: r
      else (k, cs) :: group_insert key c r
  end.
(** groupChunksByShard, include/z5/multiarray/array_access.hxx:315-322. *)
Definition group_chunks (cps : shape) (reqs : list shape) : outcome (list (shape * list shape)) :=
  foldM (fun g c => let! k := shard_id c cps in Ok (group_insert k c g)) reqs [].

(** The readExisting callback of writeShardedGeneric,
    include/z5/multiarray/array_access.hxx:374-381. *)
Definition shard_existing (sd : sharded) (blob : bytes) (buf : list cell)
    : outcome (bool * list cell) :=
  match blob with
  | [] => Ok (false, buf)
  | _ =>
      let! b := decompress (d_codec (sd_base sd)) (t_width (d_type (sd_base sd))) blob buf (lenN buf) in
      Ok (true, b)
  end.

(** The loop body over the inner chunks of one shard,
    include/z5/multiarray/array_access.hxx:368-391; state: chunk buffer and blobs. *)
Definition shard_write_chunk (sd : sharded) (src : source) (off n : shape)
    (state : list cell * list bytes) (c : shape) : outcome (list cell * list bytes) :=
  let '(buffer, blobs) := state in
  let! slot := shard_slot c (sd_cps sd) in
  let! blob := getN blobs slot in
  let! buffer' := prepare_chunk (sd_base sd) off n c src (shard_existing sd blob) buffer in
  let! ob := make_chunk_blob sd c buffer' in
  let! blobs' := setN blobs slot (match ob with Some b => b | None => [] end) in
  Ok (buffer', blobs').

(** processShard of writeShardedGeneric, include/z5/multiarray/array_access.hxx:361-393. *)
Definition shard_write_unit (sd : sharded) (src : source) (off n : shape)
    (buffer : list cell) (g : shape * list shape) : action (list cell) :=
  do! r <- reading (fun st =>
             let! blobs := read_shard_blobs sd st (fst g) in
             foldM (shard_write_chunk sd src off n) (snd g) (buffer, blobs)) in
  do! _ <- write_shard_blobs sd (fst g) (snd r) in
  pure (Ok (fst r)).

(** writeShardedGeneric, include/z5/multiarray/array_access.hxx:327-404. *)
Definition write_sharded (sd : sharded) (src : source) (off n : shape) (reqs : list shape)
    : action unit :=
  let d := sd_base sd in
  if negb (can_write (d_mode d)) then pure (Throw EInvalidArgument)
  else
    do! cps <- pure (chunks_per_shard (sd_shard sd) (d_chunks d)) in
    do! groups <- pure (group_chunks cps reqs) in
    do! _ <- foldS (shard_write_unit sd src off n) groups
                   (repeat (d_fill d) (N.to_nat (prodw (d_chunks d)))) in
    pure (Ok tt).

(** writeSubarray / writeScalar on a sharded dataset. *)
Definition sh_write_request (sd : sharded) (src : source) (off n : shape) : action unit :=
  do! reqs <- pure (begin_request (sd_base sd) off n) in
  write_sharded sd src off n reqs.

(** The loop body over the inner chunks in readSubarraySharded,
    include/z5/multiarray/array_access.hxx:459-483; [raw] is the result of
    readShardRaw. *)
Definition shard_read_chunk (sd : sharded) (raw : option (bytes * list (N * N))) (ov : view)
    (off n : shape) (state : list cell * list cell) (c : shape)
    : outcome (list cell * list cell) :=
  let d := sd_base sd in
  let w := t_width (d_type d) in
  let '(buffer, out) := state in
  let! slot := shard_slot c (sd_cps sd) in
  let! r := coords_in_roi (d_shape d) (d_chunks d) c off n in
  let outView := subview ov (r_off_in_req r) (r_shape r) in
  let! e := match raw with
            | None => Ok None
            | Some (b, tbl) =>
                let! e := getN tbl slot in
                if snd e =? 0 then Ok None else Ok (Some (b, e))
            end in
  match e with
  | None => let! out' := fill_view out outView (d_fill d) in Ok (buffer, out')
  | Some (b, (o, nb)) =>
      let buffer1 := if lenN buffer =? prodw (d_chunks d) then buffer
                     else resize w (prodw (d_chunks d)) buffer in
      let! payload := read_bytes b o nb in
      let! buffer2 := decompress (d_codec d) w payload buffer1 (prodw (d_chunks d)) in
      let! out' := copy_view buffer2
                     (subview (make_view (d_chunks d)) (r_off_in_chunk r) (r_shape r))
                     out outView in
      Ok (buffer2, out')
  end.

(** processShard of readSubarraySharded, include/z5/multiarray/array_access.hxx:450-485. *)
Definition shard_read_unit (sd : sharded) (st : store) (ov : view) (off n : shape)
    (state : list cell * list cell) (g : shape * list shape) : outcome (list cell * list cell) :=
  let! raw := read_shard_raw sd st (fst g) in
  foldM (shard_read_chunk sd raw ov off n) (snd g) state.

(** readSubarraySharded, include/z5/multiarray/array_access.hxx:419-493, and
    readSubarray on a sharded dataset. *)
Definition sh_read_subarray (sd : sharded) (st : store) (ov : view) (off : shape)
    (out : list cell) : outcome (list cell) :=
  let d := sd_base sd in
  let w := t_width (d_type d) in
  let! reqs := begin_request d off (v_shape ov) in
  let! cps := chunks_per_shard (sd_shard sd) (d_chunks d) in
  let! groups := group_chunks cps reqs in
  let! r := foldM (shard_read_unit sd st ov off (v_shape ov)) groups
                  (repeat (zero_cell w) (N.to_nat (prodw (d_chunks d))), out) in
  Ok (snd r).
