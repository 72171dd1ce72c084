(** What a chunk file means, as a function of its bytes alone. *)
From Verif Require Import M_Base M_Text M_Key M_View M_N5Header M_Format M_Mode M_Dataset M_Access
  S_Array S_Grid S_Bytes S_Text S_Format S_Dataset S_Access.

(** Number of elements and compressed payload of a chunk file: zarr stores the whole
    chunk shape, n5 has a header.  [None]: not a chunk of fixed size. *)
Definition file_parts (d : dataset) (file : bytes) : option (N * bytes) :=
  if d_zarr d then Some (prod (d_chunks d), file)
  else match read_n5_header file with
       | Ok (false, sz, len) => Some (sz, skipn (N.to_nat len) file)
       | _ => None
       end.

(** The bytes of the elements; [None] if the codec rejects the payload. *)
Definition unpack (d : dataset) (sz : N) (payload : bytes) : option bytes :=
  let size := sz * t_width (d_type d) in
  if cd_raw (d_codec d) then if lenN payload <=? size then Some payload else None
  else match cd_dec (d_codec d) payload size with Ok x => Some x | _ => None end.

(** Shape and elements in the file of chunk [c]; n5 elements are big endian, and an
    n5 chunk at the border may be stored with the full chunk shape. *)
Definition file_cells (d : dataset) (c : shape) (file : bytes) : option (shape * list cell) :=
  match file_parts d file with
  | None => None
  | Some (sz, payload) =>
      match unpack d sz payload with
      | None => None
      | Some x =>
          let cells := split_cells (N.to_nat sz) (t_width (d_type d)) x in
          Some (if sz =? prod (chunk_extent (d_shape d) (d_chunks d) c)
                then chunk_extent (d_shape d) (d_chunks d) c else d_chunks d,
                if d_zarr d then cells else map (@rev N) cells)
      end
  end.

(** The file holds as many elements as its chunk has, or is rejected: it was not cut
    short. *)
Definition complete_file (d : dataset) (c : shape) (file : bytes) : Prop :=
  forall sz payload, file_parts d file = Some (sz, payload) ->
    (sz = prod (chunk_extent (d_shape d) (d_chunks d) c) \/ sz = prod (d_chunks d)) /\
    (cd_raw (d_codec d) = true -> Forall is_byte payload /\ sz * t_width (d_type d) <= lenN payload) /\
    (cd_raw (d_codec d) = false ->
      match cd_dec (d_codec d) payload (sz * t_width (d_type d)) with
      | Ok x => lenN x = sz * t_width (d_type d) /\ Forall is_byte x
      | Throw _ => True
      | UB => False
      end).

(** The element at [x] according to the file of its chunk alone. *)
Definition stored_value (d : dataset) (st : store) (x : shape) : cell :=
  match st (chunk_key (d_key d) (chunk_of (d_chunks d) x)) with
  | None => d_fill d
  | Some file =>
      match file_cells d (chunk_of (d_chunks d) x) file with
      | Some (sh, cells) => cell_at cells (rowmajor sh (pos_of (d_chunks d) x))
      | None => []
      end
  end.

(** The file of chunk [c] is missing or can be read. *)
Definition readable (d : dataset) (st : store) (c : shape) : Prop :=
  forall file, st (chunk_key (d_key d) c) = Some file -> file_cells d c file <> None.
