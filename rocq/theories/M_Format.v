(** Model of include/z5/util/format_data.hxx (chunk serialisation) over typed
    buffers.  An element of type T is the list of its sizeof(T) bytes in host
    (little endian) memory order; a typed buffer is a list of elements. *)
From Verif Require Import M_Base M_Bytes M_N5Header.

(** An element: sizeof(T) bytes. *)
Notation cell := (list N).

(** The value types of include/z5/types/types.hxx:36-70 (DatatypeSize:432-443):
    size in bytes, and whether it is float32 / float64. *)
Record elem_type := ElemType { t_width : N; t_float : bool }.

(** Bit pattern of +infinity of an IEEE type of [w] bytes (sign bit cleared);
    larger magnitudes are NaN.  float: 8 exponent / 23 mantissa bits, double: 11 /
    52. *)
Definition inf_pattern (w : N) : N :=
  if w =? 4 then (2 ^ 8 - 1) * 2 ^ 23 else (2 ^ 11 - 1) * 2 ^ 52.

(** operator== on T as used at include/z5/util/format_data.hxx:117: bitwise for
    integers; for floating point NaN differs from everything and the two zeros
    are equal. *)
Definition elem_eq (t : elem_type) (a b : cell) : bool :=
  let va := of_le_bytes a in
  let vb := of_le_bytes b in
  if t_float t then
    let m := 2 ^ (8 * t_width t - 1) in
    let nan v := inf_pattern (t_width t) <? v mod m in
    negb (nan va) && negb (nan vb) &&
    ((va =? vb) || ((va mod m =? 0) && (vb mod m =? 0)))
  else va =? vb.

(** CompressorBase, include/z5/compression/compressor_base.hxx: type() == 0 (raw),
    compress and decompress.  [cd_dec payload capacity] returns the bytes written
    to the start of the output (capacity in bytes), or throws.  The compressors
    themselves are modelled in M_Codec.v. *)
Record codec := Codec {
  cd_raw : bool;
  cd_enc : bytes -> outcome bytes;
  cd_dec : bytes -> N -> outcome bytes
}.

(** The raw "codec" (RawCompressor, include/z5/compression/raw_compressor.hxx;
    compress / decompress test type() == 0 and never call it). *)
Definition raw_codec : codec := Codec true (fun b => Ok b) (fun b _ => Ok b).

(** compress, include/z5/util/format_data.hxx:9-19; reads dataSize elements of the
    input. *)
Definition compress (cd : codec) (data : list cell) (dataSize : N) : outcome bytes :=
  if lenN data <? dataSize then UB
  else
    let b := concat (firstn (N.to_nat dataSize) data) in
    if cd_raw cd then Ok b else cd_enc cd b.

(** Writing bytes through a T* : the first bytes of the buffer are replaced. *)
Definition overlay (b old : bytes) : bytes := b ++ skipn (length b) old.

(** View bytes as [n] elements of [w] bytes. *)
Fixpoint split_cells (n : nat) (w : N) (b : bytes) : list cell :=
  match n with
  | O => []
  | S m => firstn (N.to_nat w) b :: split_cells m w (skipn (N.to_nat w) b)
  end.

(** memcpy of [b] to the start of the typed buffer [out]; undefined if it does not
    fit. *)
Definition put_bytes (w : N) (out : list cell) (b : bytes) : outcome (list cell) :=
  if lenN b <=? lenN (concat out)
  then Ok (split_cells (length out) w (overlay b (concat out)))
  else UB.

(** decompress, include/z5/util/format_data.hxx:141-163, into the buffer [out];
    [data_size] elements of sizeof(T) = [w] bytes are the capacity passed on. *)
Definition decompress (cd : codec) (w : N) (payload : bytes) (out : list cell)
    (data_size : N) : outcome (list cell) :=
  if cd_raw cd then
    if mulw data_size w <? lenN payload then Throw ERuntime
    else put_bytes w out payload
  else
    let! b := cd_dec cd payload (mulw data_size w) in put_bytes w out b.

(** reverseEndiannessInplace(ptr, ptr + n), include/z5/util/format_data.hxx:243-246:
    undefined if the buffer has less than n elements. *)
Definition reverse_first (n : N) (out : list cell) : outcome (list cell) :=
  if lenN out <? n then UB
  else Ok (reverse_endian (firstn (N.to_nat n) out) ++ skipn (N.to_nat n) out).

(** data_to_n5_format, include/z5/util/format_data.hxx:65-91. *)
Definition data_to_n5_format (cd : codec) (w : N) (data : list cell) (dataSize : N)
    (sh : shape) (isVarlen : bool) : outcome bytes :=
  let header := write_n5_header sh isVarlen dataSize in
  let! compressed :=
    if 1 <? w then
      if lenN data <? dataSize then UB
      else compress cd (reverse_endian (firstn (N.to_nat dataSize) data)) dataSize
    else compress cd data dataSize in
  Ok (header ++ compressed).

(** data_to_buffer, include/z5/util/format_data.hxx:94-138.  [defshape] and
    [bshape] are the chunk's defaultShape() and shape(); [None] is the return
    value false. *)
Definition data_to_buffer (isZarr : bool) (t : elem_type) (cd : codec) (fill : cell)
    (defshape bshape : shape) (data : list cell) (isVarlen : bool) (varSize : N)
    : outcome (option bytes) :=
  if isVarlen && isZarr then Throw ERuntime
  else
    let chunkSize := if isZarr then prodw defshape else prodw bshape in
    let dataSize := if isVarlen then varSize else chunkSize in
    let chunk_shape := if isZarr then defshape else bshape in
    if lenN data <? dataSize then UB
    else if negb isVarlen &&
            forallb (fun v => elem_eq t v fill) (firstn (N.to_nat chunkSize) data)
    then Ok None
    else if isVarlen && (varSize =? 0) then Ok None
    else
      let! b := if isZarr then compress cd data dataSize
                else data_to_n5_format cd (t_width t) data dataSize chunk_shape isVarlen in
      Ok (Some b).

(** buffer_to_data, include/z5/util/format_data.hxx:224-249, decoding into [out];
    returns is_varlen and the new contents of [out]. *)
Definition buffer_to_data (isZarr : bool) (t : elem_type) (cd : codec)
    (defshape : shape) (buffer : bytes) (out : list cell) : outcome (bool * list cell) :=
  let! hdr := if isZarr then Ok (false, prodw defshape, 0) else read_n5_header buffer in
  let '(is_varlen, chunk_size, header_length) := hdr in
  let! out1 := decompress cd (t_width t) (skipn (N.to_nat header_length) buffer) out chunk_size in
  let! out2 := if negb isZarr && (1 <? t_width t) then reverse_first chunk_size out1
               else Ok out1 in
  Ok (is_varlen, out2).
