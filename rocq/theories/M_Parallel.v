(** The bodies of the loops of include/z5/multiarray/array_access.hxx as code of a
    worker thread: sequences of single accesses to the files and to the output
    array.  The single threaded model of the same code is M_Access. *)
From Verif Require Import M_Base M_Text M_Key M_Blocking M_View M_Bytes M_N5Header M_Format
  M_Mode M_Shard M_Dataset M_Sharded M_Access M_Pool.

(** Shared memory: the files of the dataset and the output array of a read, by
    address. *)
Notation pmem := (store * (N -> cell))%type.
Notation code := (prog pmem (list cell)).

(** Computation on a thread's own data. *)
Definition plet {A} (o : outcome A) (k : A -> code) : code :=
  match o with
  | Ok a => k a
  | Throw e => Ret (Throw e)
  | UB => Ret UB
  end.

(** Looking for or reading a file: the contents at that moment. *)
Definition pread (key : string) (k : option bytes -> code) : code :=
  Act (fun m => (m, k (fst m key))).

(** Changing a file. *)
Definition pset (key : string) (v : option bytes) (k : code) : code :=
  Act (fun m => ((set_key (fst m) key v, snd m), k)).

(** Storing an element of the output array. *)
Definition pout (a : N) (v : cell) (k : code) : code :=
  Act (fun m => ((fst m, fun a' => if a' =? a then v else snd m a'), k)).

(** A directory in which every file has the contents [f]; used to call functions of
    M_Dataset, which look at one file only, with the result of [pread]. *)
Definition only (f : option bytes) : store := fun _ => f.

(** The indices of an array of shape [sh] in the order of copyView / fillView,
    include/z5/multiarray/array_util.hxx:43-67. *)
Fixpoint indices (sh : shape) : list shape :=
  match sh with
  | [] => [[]]
  | n :: r => flat_map (fun i => map (fun x => N.of_nat i :: x) (indices r)) (seq 0 (N.to_nat n))
  end.

(** copyView into the output array of [size] elements,
    include/z5/multiarray/array_util.hxx:21-68, element by element; [src] belongs to
    the thread. *)
Fixpoint pcopy (size : N) (src : list cell) (sv dv : view) (idx : list shape) (k : code) : code :=
  match idx with
  | [] => k
  | i :: r =>
      plet (getN src (v_off sv + flat_offset i (v_strides sv))) (fun v =>
      let a := v_off dv + flat_offset i (v_strides dv) in
      if a <? size then pout a v (pcopy size src sv dv r k) else Ret UB)
  end.
(** fillView, include/z5/multiarray/array_util.hxx:79-119, likewise. *)
Fixpoint pfill (size : N) (dv : view) (val : cell) (idx : list shape) (k : code) : code :=
  match idx with
  | [] => k
  | i :: r =>
      let a := v_off dv + flat_offset i (v_strides dv) in
      if a <? size then pout a val (pfill size dv val r k) else Ret UB
  end.

(** include/z5/multiarray/array_access.hxx:115-148: from the bytes of the file to
    the elements in the thread's buffer, and their shape. *)
Definition decode_chunk (d : dataset) (c : shape) (dataBuffer : bytes) (buffer : list cell)
    : outcome (list cell * shape) :=
  let w := t_width (d_type d) in
  let! cshape := get_chunk_shape d c in
  let csize := prodw cshape in
  let! hdr := if d_zarr d then Ok (prodw (d_chunks d), 0)
              else let! h := read_n5_header dataBuffer in
                   let '(vl, sz, len) := h in
                   if vl : bool then Throw ERuntime else Ok (sz, len) in
  let '(chunkStoreSize, headerLength) := hdr in
  let chunkSize := if chunkStoreSize =? csize then csize else prodw (d_chunks d) in
  let chunkShape := if chunkStoreSize =? csize then cshape else d_chunks d in
  let buffer1 := if chunkSize =? lenN buffer then buffer else resize w chunkSize buffer in
  let! buffer2 := decompress (d_codec d) w (skipn (N.to_nat headerLength) dataBuffer)
                             buffer1 chunkSize in
  let! buffer3 := if negb (d_zarr d) && (1 <? w) then reverse_first chunkSize buffer2
                  else Ok buffer2 in
  Ok (buffer3, chunkShape).

(** The body of readSubarrayPlain, include/z5/multiarray/array_access.hxx:97-152, for
    chunk [c]; the output array has [size] elements. *)
Definition read_code (d : dataset) (size : N) (ov : view) (off n c : shape) (buffer : list cell) : code :=
  plet (coords_in_roi (d_shape d) (d_chunks d) c off n) (fun r =>
  let outView := subview ov (r_off_in_req r) (r_shape r) in
  plet (chunk_handle_of d (d_chunks d) c) (fun h =>
  pread (ch_key h) (fun f =>                                        (* chunkExists *)
  plet (chunk_exists d (only f) c) (fun ex =>
  if negb ex then pfill size outView (d_fill d) (indices (r_shape r)) (Ret (Ok buffer))
  else
    pread (ch_key h) (fun f2 =>                                     (* readRawChunk *)
    plet (read_raw_chunk d (only f2) c) (fun dataBuffer =>
    plet (decode_chunk d c dataBuffer buffer) (fun e =>
    pcopy size (fst e) (subview (make_view (snd e)) (r_off_in_chunk r) (r_shape r)) outView
          (indices (r_shape r)) (Ret (Ok (fst e)))))))))).

(** ChunkStore::write, see [store_write]: opening truncates the file, then the bytes
    are written (include/z5/filesystem/store.hxx:39-49). *)
Definition write_code (kc : key_config) (key : string) (b : bytes) (k : code) : code :=
  if k_zarr kc && negb (String.eqb (k_delim kc) "/") && slash_in key then Ret (Throw ERuntime)
  else pset key (Some []) (pset key (Some b) k).

(** writeChunk, include/z5/generic/dataset.hxx:42-67. *)
Definition write_chunk_code (d : dataset) (c : shape) (data : list cell) (k : code) : code :=
  if negb (can_write (d_mode d)) then Ret (Throw EInvalidArgument)
  else
    plet (chunk_handle_of d (d_chunks d) c) (fun h =>
    plet (check_chunk d h false) (fun _ =>
    plet (data_to_buffer (d_zarr d) (d_type d) (d_codec d) (d_fill d) (d_chunks d) (ch_bounded h) data false 0)
      (fun ob => match ob with
                 | None => pset (ch_key h) None k
                 | Some b => write_code (d_key d) (ch_key h) b k
                 end))).

(** The readExisting callback with the results of its two accesses, see
    [plain_existing]. *)
Definition existing_from (d : dataset) (c : shape) (f1 f2 : option bytes) (buf : list cell)
    : outcome (bool * list cell) :=
  let! ex := chunk_exists d (only f1) c in
  if negb ex then Ok (false, buf)
  else
    let! r := read_chunk d (only f2) c buf in
    if fst r then Throw ERuntime else Ok (true, snd r).

(** The body of writePlainGeneric, include/z5/multiarray/array_access.hxx:267-287.  The
    two accesses of the callback come first; their results are not used when the
    chunk is covered completely and the callback is not called. *)
Definition write_unit_code (d : dataset) (src : source) (off n c : shape) (buffer : list cell) : code :=
  plet (chunk_handle_of d (d_chunks d) c) (fun h =>
  pread (ch_key h) (fun f1 =>
  pread (ch_key h) (fun f2 =>
  plet (prepare_chunk d off n c src (existing_from d c f1 f2) buffer) (fun buffer' =>
  write_chunk_code d c buffer' (Ret (Ok buffer')))))).

(** The inner chunks of processShard in readSubarraySharded,
    include/z5/multiarray/array_access.hxx:459-483, see [shard_read_chunk]. *)
Fixpoint shard_read_code (sd : sharded) (size : N) (raw : option (bytes * list (N * N))) (ov : view)
    (off n : shape) (cs : list shape) (buffer : list cell) : code :=
  match cs with
  | [] => Ret (Ok buffer)
  | c :: rest =>
      let d := sd_base sd in
      let w := t_width (d_type d) in
      plet (shard_slot c (sd_cps sd)) (fun slot =>
      plet (coords_in_roi (d_shape d) (d_chunks d) c off n) (fun r =>
      let outView := subview ov (r_off_in_req r) (r_shape r) in
      plet (match raw with
            | None => Ok None
            | Some (b, tbl) =>
                let! e := getN tbl slot in
                if snd e =? 0 then Ok None else Ok (Some (b, e))
            end) (fun e =>
      match e with
      | None => pfill size outView (d_fill d) (indices (r_shape r))
                      (shard_read_code sd size raw ov off n rest buffer)
      | Some (b, (o, nb)) =>
          let buffer1 := if lenN buffer =? prodw (d_chunks d) then buffer
                         else resize w (prodw (d_chunks d)) buffer in
          plet (let! payload := read_bytes b o nb in
                decompress (d_codec d) w payload buffer1 (prodw (d_chunks d))) (fun buffer2 =>
          pcopy size buffer2 (subview (make_view (d_chunks d)) (r_off_in_chunk r) (r_shape r)) outView
                (indices (r_shape r)) (shard_read_code sd size raw ov off n rest buffer2))
      end)))
  end.

(** processShard of readSubarraySharded, include/z5/multiarray/array_access.hxx:450-485. *)
Definition shard_read_unit_code (sd : sharded) (size : N) (ov : view) (off n : shape)
    (g : shape * list shape) (buffer : list cell) : code :=
  plet (shard_handle sd (fst g)) (fun h =>
  pread (ch_key h) (fun f =>
  plet (read_shard_raw sd (only f) (fst g)) (fun raw =>
  shard_read_code sd size raw ov off n (snd g) buffer))).

(** writeShardBlobs, include/z5/generic/sharded_dataset.hxx:222-237. *)
Definition write_blobs_code (sd : sharded) (coord : shape) (blobs : list bytes) (k : code) : code :=
  if negb (can_write (d_mode (sd_base sd))) then Ret (Throw EInvalidArgument)
  else
    plet (shard_handle sd coord) (fun h =>
    if all_slots_empty blobs then pset (ch_key h) None k
    else write_code (d_key (sd_base sd)) (ch_key h) (build_shard blobs) k).

(** processShard of writeShardedGeneric, include/z5/multiarray/array_access.hxx:361-393. *)
Definition shard_write_unit_code (sd : sharded) (src : source) (off n : shape)
    (g : shape * list shape) (buffer : list cell) : code :=
  plet (shard_handle sd (fst g)) (fun h =>
  pread (ch_key h) (fun f =>
  plet (let! blobs := read_shard_blobs sd (only f) (fst g) in
        foldM (shard_write_chunk sd src off n) (snd g) (buffer, blobs)) (fun r =>
  write_blobs_code sd (fst g) (snd r) (Ret (Ok (fst r)))))).

(** The state a thread's buffer may have after a unit that threw: any vector of
    elements of the type's size.  Simplified: no other sizes of elements. *)
Definition left_over (w : N) (buf : list cell) : Prop :=
  Forall (fun e => lenN e = w /\ Forall (fun x => x < 256) e) buf.

(** readSubarray with [threads] threads can leave the output array [out'] (given by
    address) and the result [r]: include/z5/multiarray/array_access.hxx:157-181 with the
    loops of lines 24-73. *)
Inductive read_run (d : dataset) (threads : N) (estimate : Z) (st : store) (ov : view) (off : shape)
    (size : N) (out : N -> cell) : (N -> cell) -> outcome unit -> Prop :=
| read_run_reqs reqs m1 r : begin_request d off (v_shape ov) = Ok reqs ->
    foreach_run threads estimate (List.length reqs)
      (fun _ i => read_code d size ov off (v_shape ov) (nth i reqs []))
      (left_over (t_width (d_type d)))
      (repeat (zero_cell (t_width (d_type d))) (N.to_nat (prodw (d_chunks d)))) (st, out) m1 r ->
    read_run d threads estimate st ov off size out (snd m1) r
| read_run_rejected e : begin_request d off (v_shape ov) = Throw e ->
    read_run d threads estimate st ov off size out out (Throw e).

(** writeSubarray / writeScalar with [threads] threads. *)
Inductive write_run (d : dataset) (threads : N) (estimate : Z) (src : source) (off n : shape)
    (st : store) : store -> outcome unit -> Prop :=
| write_run_reqs reqs m1 r : begin_request d off n = Ok reqs ->
    foreach_run threads estimate (List.length reqs)
      (fun _ i => write_unit_code d src off n (nth i reqs []))
      (left_over (t_width (d_type d)))
      (repeat (d_fill d) (N.to_nat (prodw (d_chunks d)))) (st, fun _ => []) m1 r ->
    write_run d threads estimate src off n st (fst m1) r
| write_run_rejected e : begin_request d off n = Throw e ->
    write_run d threads estimate src off n st st (Throw e).

(** readSubarray on a sharded dataset, include/z5/multiarray/array_access.hxx:419-493. *)
Inductive sh_read_run (sd : sharded) (threads : N) (estimate : Z) (st : store) (ov : view) (off : shape)
    (size : N) (out : N -> cell) : (N -> cell) -> outcome unit -> Prop :=
| sh_read_run_groups groups m1 r :
    (let! reqs := begin_request (sd_base sd) off (v_shape ov) in
     let! cps := chunks_per_shard (sd_shard sd) (d_chunks (sd_base sd)) in
     group_chunks cps reqs) = Ok groups ->
    foreach_run threads estimate (List.length groups)
      (fun _ i => shard_read_unit_code sd size ov off (v_shape ov) (nth i groups ([], [])))
      (left_over (t_width (d_type (sd_base sd))))
      (repeat (zero_cell (t_width (d_type (sd_base sd)))) (N.to_nat (prodw (d_chunks (sd_base sd)))))
      (st, out) m1 r ->
    sh_read_run sd threads estimate st ov off size out (snd m1) r
| sh_read_run_rejected e :
    (let! reqs := begin_request (sd_base sd) off (v_shape ov) in
     let! cps := chunks_per_shard (sd_shard sd) (d_chunks (sd_base sd)) in
     group_chunks cps reqs) = Throw e ->
    sh_read_run sd threads estimate st ov off size out out (Throw e).

(** writeSubarray / writeScalar on a sharded dataset,
    include/z5/multiarray/array_access.hxx:327-404. *)
Inductive sh_write_run (sd : sharded) (threads : N) (estimate : Z) (src : source) (off n : shape)
    (st : store) : store -> outcome unit -> Prop :=
| sh_write_run_groups groups m1 r :
    (let! reqs := begin_request (sd_base sd) off n in
     if negb (can_write (d_mode (sd_base sd))) then Throw EInvalidArgument else
     let! cps := chunks_per_shard (sd_shard sd) (d_chunks (sd_base sd)) in
     group_chunks cps reqs) = Ok groups ->
    foreach_run threads estimate (List.length groups)
      (fun _ i => shard_write_unit_code sd src off n (nth i groups ([], [])))
      (left_over (t_width (d_type (sd_base sd))))
      (repeat (d_fill (sd_base sd)) (N.to_nat (prodw (d_chunks (sd_base sd))))) (st, fun _ => []) m1 r ->
    sh_write_run sd threads estimate src off n st (fst m1) r
| sh_write_run_rejected e :
    (let! reqs := begin_request (sd_base sd) off n in
     if negb (can_write (d_mode (sd_base sd))) then Throw EInvalidArgument else
     let! cps := chunks_per_shard (sd_shard sd) (d_chunks (sd_base sd)) in
     group_chunks cps reqs) = Throw e ->
    sh_write_run sd threads estimate src off n st st (Throw e).
