(** Model of the n5 chunk header: include/z5/util/format_data.hxx:22-62,165-221
    and include/z5/filesystem/store.hxx:97-154. *)
From Verif Require Import M_Base M_Bytes.

(** write_n5_header, include/z5/util/format_data.hxx:22-62.  [varlen] is a
    uint32_t argument: callers pass a size_t, truncated by [le_bytes 4].
    Simplified: the header is built by concatenation instead of memcpy into a
    buffer of the right size. *)
Definition write_n5_header (sh : shape) (isVarlen : bool) (varlen : N) : bytes :=
  let mode := reverse_elem (le_bytes 2 (if isVarlen then 1 else 0)) in
  let nDimsOut := reverse_elem (le_bytes 2 (lenN sh)) in
  let shapeOut := rev (reverse_endian (map (le_bytes 4) sh)) in
  mode ++ nDimsOut ++ concat shapeOut ++
  (if isVarlen then reverse_elem (le_bytes 4 varlen) else []).

(** The shape loop, include/z5/util/format_data.hxx:196-199: entries d, d+1, ... *)
Fixpoint read_shape_entries (buffer : bytes) (d : N) (n : nat) : outcome (list bytes) :=
  match n with
  | O => Ok []
  | S m =>
      let! e := read_bytes buffer ((d + 1) * 4) 4 in
      let! r := read_shape_entries buffer (d + 1) m in
      Ok (e :: r)
  end.

(** read_n5_header, include/z5/util/format_data.hxx:170-221.  Returns (is_varlen,
    data_size, header_length). *)
Definition read_n5_header (buffer : bytes) : outcome (bool * N * N) :=
  if lenN buffer <? 4 then Throw ERuntime
  else
    let! m := read_bytes buffer 0 2 in
    let mode := of_le_bytes (reverse_elem m) in
    let! nd := read_bytes buffer 2 2 in
    let ndim := of_le_bytes (reverse_elem nd) in
    let is_varlen := mode =? 1 in
    let fullHeaderLen := (ndim + 1) * 4 + (if is_varlen then 4 else 0) in
    if lenN buffer <? fullHeaderLen then Throw ERuntime
    else
      let! es := read_shape_entries buffer 0 (N.to_nat ndim) in
      let sh := rev (map of_le_bytes (reverse_endian es)) in
      let headerlen := (ndim + 1) * 4 in
      if is_varlen then
        let! v := read_bytes buffer headerlen 4 in
        Ok (true, of_le_bytes (reverse_elem v), headerlen + 4)
      else Ok (false, prodw sh, headerlen).

(** ChunkStore::readVarlenFromHeader, include/z5/filesystem/store.hxx:97-125:
    [None] is the return value false.  A read past the end of the file leaves
    the variable uninitialised, which is [UB]. *)
Definition read_varlen_from_header (file : bytes) : outcome (option N) :=
  let! m := read_bytes file 0 2 in
  let mode := of_le_bytes (reverse_elem m) in
  if mode =? 0 then Ok None
  else
    let! nd := read_bytes file 2 2 in
    let ndim := of_le_bytes (reverse_elem nd) in
    let! v := read_bytes file ((ndim + 1) * 4) 4 in
    Ok (Some (of_le_bytes (reverse_elem v))).

(** ifstream::read of 4 bytes at [pos] into a zero: at the end of the file the bytes that
    are there are stored and the others stay 0. *)
Definition stream_entry (file : bytes) (pos : N) : bytes :=
  firstn 4 (firstn 4 (skipn (N.to_nat pos) file) ++ [0; 0; 0; 0]).

(** The shape loop, include/z5/filesystem/store.hxx:140-143: entries d, d+1, ...; the
    vector is zero initialised, and a failed stream reads nothing. *)
Fixpoint stream_entries (file : bytes) (d : N) (n : nat) : list bytes :=
  match n with
  | O => []
  | S m => stream_entry file ((d + 1) * 4) :: stream_entries file (d + 1) m
  end.

(** ChunkStore::readShapeFromHeader, include/z5/filesystem/store.hxx:128-154.  The
    number of dimensions is not initialised before it is read ([UB] if the file ends
    before). *)
Definition read_shape_from_header (file : bytes) : outcome shape :=
  let! nd := read_bytes file 2 2 in
  let ndim := of_le_bytes (reverse_elem nd) in
  Ok (rev (map of_le_bytes (reverse_endian (stream_entries file 0 (N.to_nat ndim))))).
