(** Model of byte level helpers: reverseEndiannessInplace
    (include/z5/util/util.hxx) and the little endian integers of
    include/z5/util/sharding.hxx. *)
From Verif Require Import M_Base.

(** Object representation of an unsigned integer of [n] bytes on the (little
    endian) host, i.e. what memcpy from a uint16_t / uint32_t / uint64_t copies;
    the value is truncated to [n] bytes like in the conversion to that type
    (used by include/z5/util/format_data.hxx:30-60). *)
Fixpoint le_bytes (n : nat) (v : N) : bytes :=
  match n with
  | O => []
  | S m => v mod 256 :: le_bytes m (v / 256)
  end.

(** The inverse: value of an unsigned integer whose object representation is
    given (memcpy into a uint16_t / uint32_t,
    include/z5/util/format_data.hxx:181-205). *)
Fixpoint of_le_bytes (bs : bytes) : N :=
  match bs with [] => 0 | b :: r => b + 256 * of_le_bytes r end.

(** reverseEndiannessInplace(T &), include/z5/util/util.hxx:85-96: byte ii of the
    result is byte typeMax-ii of the value.  An element is the list of its
    sizeof(T) bytes. *)
Definition reverse_elem (e : bytes) : bytes :=
  map (fun ii => nth (length e - 1 - ii) e 0) (seq 0 (length e)).

(** reverseEndiannessInplace(begin, end), include/z5/util/util.hxx:68-82. *)
Definition reverse_endian (es : list bytes) : list bytes := map reverse_elem es.

(** memcpy(&v, &buffer[off], n) / reading [n] bytes at [off]: undefined outside of
    the buffer. *)
Definition read_bytes (b : bytes) (off n : N) : outcome bytes :=
  if off + n <=? lenN b then Ok (firstn (N.to_nat n) (skipn (N.to_nat off) b)) else UB.

(** The loop of readLE64 / readLE32, include/z5/util/sharding.hxx:76-89:
    v |= p[i] << (8*i).  [i] counts up from the first byte. *)
Fixpoint read_le_loop (i : N) (p : bytes) (v : N) : N :=
  match p with
  | [] => v
  | b :: r => read_le_loop (i + 1) r (N.lor v (N.shiftl b (8 * i)))
  end.
(** readLE64, include/z5/util/sharding.hxx:76-82, reading 8 bytes at [off]. *)
Definition read_le64 (b : bytes) (off : N) : outcome N :=
  let! p := read_bytes b off 8 in Ok (read_le_loop 0 p 0).
(** readLE32, include/z5/util/sharding.hxx:83-89. *)
Definition read_le32 (b : bytes) (off : N) : outcome N :=
  let! p := read_bytes b off 4 in Ok (read_le_loop 0 p 0).

(** writeLE64, include/z5/util/sharding.hxx:90-94 (the bytes that are appended). *)
Definition write_le64 (v : N) : bytes :=
  map (fun i => N.land (N.shiftr v (8 * i)) 255) [0; 1; 2; 3; 4; 5; 6; 7].
(** writeLE32, include/z5/util/sharding.hxx:95-99. *)
Definition write_le32 (v : N) : bytes :=
  map (fun i => N.land (N.shiftr v (8 * i)) 255) [0; 1; 2; 3].
