(** Model of the plain dataset: include/z5/generic/dataset.hxx over the directory
    of include/z5/filesystem/store.hxx. *)
From Verif Require Import M_Base M_Text M_Key M_Blocking M_Bytes M_N5Header M_Format M_Mode.

(** The files below the dataset directory, by path relative to it.  Simplified:
    directories are not recorded, the operating system's reads and writes of
    existing directories succeed. *)
Notation store := (string -> option bytes).

(** A call that may modify the files: files afterwards (also when it throws) and
    outcome. *)
Notation action A := (store -> store * outcome A).

(** Sequencing of C++ statements; an exception keeps the effects so far. *)
Definition sbind {A B} (m : action A) (f : A -> action B) : action B := fun st =>
  match m st with
  | (st', Ok a) => f a st'
  | (st', Throw e) => (st', Throw e)
  | (st', UB) => (st', UB)
  end.
Notation "'do!' x '<-' a 'in' b" := (sbind a (fun x => b))
  (at level 200, x pattern, a at level 100, b at level 200, right associativity).
(** A computation without access to the files / one that only reads them. *)
Definition pure {A} (o : outcome A) : action A := fun st => (st, o).
Definition reading {A} (f : store -> outcome A) : action A := fun st => (st, f st).
(** Loop [for (x : xs) acc = f(acc, x)]. *)
Fixpoint foldS {A B} (f : B -> A -> action B) (xs : list A) (acc : B) : action B :=
  match xs with
  | [] => pure (Ok acc)
  | x :: r => do! acc' <- f acc x in foldS f r acc'
  end.

(** The members of z5::Dataset, generic::Dataset and MixinTyped<T> that the
    operations use: include/z5/dataset.hxx:30-38,205-213,218-222 and
    include/z5/generic/dataset.hxx:31-38.  [d_key] holds isZarr and the handle's
    delimiter, format and encoding. *)
Record dataset := Dataset {
  d_shape : shape;
  d_chunks : shape;         (* defaultChunkShape() *)
  d_key : key_config;
  d_type : elem_type;
  d_fill : cell;            (* fillValue_ *)
  d_codec : codec;          (* compressor_ *)
  d_mode : mode
}.

(** isZarr_. *)
Definition d_zarr (d : dataset) : bool := k_zarr (d_key d).

(** chunking_, constructed from shape_ and chunkShape_, include/z5/dataset.hxx:37.
    Simplified: computed at each use. *)
Definition d_blocking (d : dataset) : outcome blocking := mk_blocking (d_shape d) (d_chunks d).

(** Writing one key of the store. *)
Definition set_key (st : store) (k : string) (v : option bytes) : store :=
  fun k' => if String.eqb k' k then v else st k'.

(** A chunk handle: the constructor computes the bounded shape and the key
    (include/z5/filesystem/handle.hxx:268-273, include/z5/handle.hxx:222-230) and
    reads chunkIndices_[d] for every d < ndim, so a short id vector is read out of
    bounds. *)
Record chunk_handle := ChunkHandle { ch_ids : shape; ch_bounded : shape; ch_key : string }.
(** Chunk::Chunk, see [chunk_handle]; [blk] is the default shape of the handle (the
    chunk shape, or the shard shape for shards). *)
Definition chunk_handle_of (d : dataset) (blk ids : shape) : outcome chunk_handle :=
  if lenN ids <? lenN blk then UB
  else if lenN (d_shape d) <? lenN blk then UB
  else Ok (ChunkHandle ids (bounded_shape (d_shape d) blk ids) (chunk_key (d_key d) ids)).

(** slash_in s: s contains "/". *)
Fixpoint slash_in (s : string) : bool :=
  match s with
  | EmptyString => false
  | String c r => Ascii.eqb c "/" || slash_in r
  end.

(** ChunkStore::write, include/z5/filesystem/store.hxx:75-80, with Chunk::create
    (include/z5/filesystem/handle.hxx:276-293): the parent directories are only
    created for n5 and for the delimiter "/"; otherwise opening a file in a
    missing directory fails. *)
Definition store_write (k : key_config) (key : string) (b : bytes) : action unit :=
  if k_zarr k && negb (String.eqb (k_delim k) "/") && slash_in key then pure (Throw ERuntime)
  else fun st => (set_key st key (Some b), Ok tt).

(** ChunkStore::read, include/z5/filesystem/store.hxx:66-73: None is false. *)
Definition store_read (st : store) (key : string) : option bytes := st key.

(** ChunkStore::erase, include/z5/filesystem/store.hxx:82-86. *)
Definition store_erase (key : string) : action unit := fun st => (set_key st key None, Ok tt).

(** checkChunk, include/z5/generic/dataset.hxx:226-237. *)
Definition check_chunk (d : dataset) (h : chunk_handle) (isVarlen : bool) : outcome unit :=
  let! bl := d_blocking d in
  if negb (check_block bl (ch_ids h)) then Throw ERuntime
  else if isVarlen && d_zarr d then Throw ERuntime
  else Ok tt.

(** writeChunk, include/z5/generic/dataset.hxx:42-67. *)
Definition write_chunk (d : dataset) (ids : shape) (data : list cell)
    (isVarlen : bool) (varSize : N) : action unit :=
  if negb (can_write (d_mode d)) then pure (Throw EInvalidArgument)
  else
    do! h <- pure (chunk_handle_of d (d_chunks d) ids) in
    do! _ <- pure (check_chunk d h isVarlen) in
    do! ob <- pure (data_to_buffer (d_zarr d) (d_type d) (d_codec d) (d_fill d)
                      (d_chunks d) (ch_bounded h) data isVarlen varSize) in
    match ob with
    | None => store_erase (ch_key h)
    | Some b => store_write (d_key d) (ch_key h) b
    end.

(** readChunk, include/z5/generic/dataset.hxx:72-90, into the buffer [out]. *)
Definition read_chunk (d : dataset) (st : store) (ids : shape) (out : list cell)
    : outcome (bool * list cell) :=
  let! h := chunk_handle_of d (d_chunks d) ids in
  let! _ := check_chunk d h false in
  match store_read st (ch_key h) with
  | None => Throw ERuntime
  | Some b => buffer_to_data (d_zarr d) (d_type d) (d_codec d) (d_chunks d) b out
  end.

(** readRawChunk, include/z5/generic/dataset.hxx:92-99. *)
Definition read_raw_chunk (d : dataset) (st : store) (ids : shape) : outcome bytes :=
  let! h := chunk_handle_of d (d_chunks d) ids in
  Ok (match store_read st (ch_key h) with None => [] | Some b => b end).

(** chunkExists, include/z5/generic/dataset.hxx:108-111. *)
Definition chunk_exists (d : dataset) (st : store) (ids : shape) : outcome bool :=
  let! h := chunk_handle_of d (d_chunks d) ids in
  Ok (match st (ch_key h) with None => false | Some _ => true end).

(** getChunkSize, include/z5/generic/dataset.hxx:114-117 (Chunk::size). *)
Definition get_chunk_size (d : dataset) (ids : shape) : outcome N :=
  let! h := chunk_handle_of d (d_chunks d) ids in Ok (prodw (ch_bounded h)).

(** getChunkShape with fromHeader = false, include/z5/generic/dataset.hxx:120-133. *)
Definition get_chunk_shape (d : dataset) (ids : shape) : outcome shape :=
  let! h := chunk_handle_of d (d_chunks d) ids in Ok (ch_bounded h).

(** checkVarlenChunk, include/z5/generic/dataset.hxx:178-195: (is varlen, size). *)
Definition check_varlen_chunk (d : dataset) (st : store) (ids : shape) : outcome (bool * N) :=
  let! h := chunk_handle_of d (d_chunks d) ids in
  let size := prodw (ch_bounded h) in
  if d_zarr d then Ok (false, size)
  else match st (ch_key h) with
       | None => Ok (false, size)
       | Some b =>
           let! v := read_varlen_from_header b in
           Ok (match v with None => (false, size) | Some n => (true, n) end)
       end.

(** removeChunk, include/z5/generic/dataset.hxx:207-210, with Chunk::remove
    (include/z5/filesystem/handle.hxx:311-317): fs::remove of a missing file is a
    no-op. *)
Definition remove_chunk (d : dataset) (ids : shape) : action unit :=
  do! h <- pure (chunk_handle_of d (d_chunks d) ids) in
  if negb (can_write (d_mode d)) then pure (Throw EInvalidArgument)
  else store_erase (ch_key h).
