(** Model of what a dataset reports about itself: include/z5/dataset.hxx:73-89 and
    getChunkShape of include/z5/generic/dataset.hxx; the properties of the python class
    (src/python/module/z5py/dataset.py:363-409,681-695, src/python/lib/dataset.cxx:219-241)
    return these values. *)
From Verif Require Import M_Base M_Blocking M_N5Header M_Dataset M_Sharded.

(** size, include/z5/dataset.hxx:76-78. *)
Definition ds_size (d : dataset) : N := prodw (d_shape d).

(** dimension, include/z5/dataset.hxx:73 (an unsigned int). *)
Definition ds_dimension (d : dataset) : N := lenN (d_shape d) mod 2 ^ 32.

(** shape(0), include/z5/dataset.hxx:75, which is __len__ in python. *)
Definition ds_len (d : dataset) : outcome N := getN (d_shape d) 0.

(** numberOfChunks and chunksPerDimension, include/z5/dataset.hxx:87-88. *)
Definition number_of_chunks (d : dataset) : outcome N :=
  let! bl := d_blocking d in Ok (b_number bl).
Definition chunks_per_dimension (d : dataset) : outcome shape :=
  let! bl := d_blocking d in Ok (b_per_dim bl).

(** getChunkOffset, include/z5/dataset.hxx:80-85: the ids are not checked. *)
Definition get_chunk_offset (d : dataset) (ids : shape) : outcome shape :=
  if lenN ids <? lenN (d_shape d) then UB
  else if lenN (d_chunks d) <? lenN (d_shape d) then UB
  else Ok (map2 mulw (firstn (length (d_shape d)) ids) (d_chunks d)).

(** getChunkShape, include/z5/generic/dataset.hxx:120-133.  The file is opened without a
    check; the number of dimensions that is read from a missing one is not initialised. *)
Definition get_chunk_shape_from (d : dataset) (st : store) (ids : shape) (fromHeader : bool) : outcome shape :=
  let! h := chunk_handle_of d (d_chunks d) ids in
  if negb (d_zarr d) && fromHeader then
    match st (ch_key h) with
    | None => UB
    | Some file => read_shape_from_header file
    end
  else Ok (ch_bounded h).

(** getChunkShape of one axis, include/z5/generic/dataset.hxx:136-148; operator[] of the
    vector is not checked. *)
Definition get_chunk_shape_dim (d : dataset) (st : store) (ids : shape) (dim : N) (fromHeader : bool) : outcome N :=
  let! s := get_chunk_shape_from d st ids fromHeader in getN s dim.

(** getChunkSize and getChunkShape of sharded datasets,
    include/z5/generic/sharded_dataset.hxx:106-127: the header flag is ignored. *)
Definition sh_get_chunk_size (sd : sharded) (ids : shape) : outcome N := get_chunk_size (sd_base sd) ids.
Definition sh_get_chunk_shape (sd : sharded) (ids : shape) (_ : bool) : outcome shape :=
  get_chunk_shape (sd_base sd) ids.
