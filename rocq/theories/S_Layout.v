(** The published storage formats (Zarr v2, Zarr v3 with the sharding codec, N5),
    written down as a reader: which file holds an element of an array, and where in
    the file.  Nothing here refers to the functions of the model. *)
From Coq Require Import String NArith DecimalString.
From Verif Require Import M_Base S_Array S_Bytes S_Crc.
Import ListNotations.
Local Open Scope list_scope.
Local Open Scope N_scope.

(** The layouts: Zarr v2 with its dimension separator; Zarr v3 with the chunk key
    encoding "default" ([prefix]) or "v2" and its separator, plain or with shards
    of the given shape; N5. *)
Inductive layout :=
| Zarr2 (sep : string)
| Zarr3 (prefix : bool) (sep : string)
| Zarr3Sharded (prefix : bool) (sep : string) (shard : shape)
| N5.

(** What a reader knows of an array from its metadata. *)
Record described := Described {
  de_layout : layout;
  de_shape : shape;
  de_chunks : shape;
  de_width : N;                        (* bytes of an element *)
  de_fill : list N;                    (* fill value, little endian *)
  de_decode : bytes -> N -> option bytes  (* decompression to the given size *)
}.

Definition numeral (n : N) : string := NilZero.string_of_uint (N.to_uint n).

(** Zarr v2: "0.1.2", and "0" without axes; Zarr v3: "c/0/1/2" or as v2. *)
Definition zarr_name (prefix : bool) (sep : string) (c : shape) : string :=
  if prefix then String.concat sep ("c"%string :: map numeral c)
  else match c with [] => "0"%string | _ => String.concat sep (map numeral c) end.
(** N5: "2/1/0", the first axis of N5 is the last of the C order. *)
Definition n5_name (c : shape) : string := String.concat "/" (map numeral (rev c)).

Definition slice (b : bytes) (off n : N) : bytes := firstn (N.to_nat n) (skipn (N.to_nat off) b).

(** The element at [pos] of a compressed block with the elements of shape [dims], the
    last axis fastest. *)
Definition zarr_block (A : described) (payload : bytes) (pos : shape) : option (list N) :=
  match de_decode A payload (prod (de_chunks A) * de_width A) with
  | Some raw =>
      if lenN raw =? prod (de_chunks A) * de_width A
      then Some (slice raw (rowmajor (de_chunks A) pos * de_width A) (de_width A))
      else None
  | None => None
  end.

(** Position in an array with the first axis fastest. *)
Fixpoint colmajor (s c : list N) : N :=
  match s, c with
  | n :: s', x :: c' => x + n * colmajor s' c'
  | _, _ => 0
  end.
Fixpoint inside (s c : list N) : bool :=
  match s, c with
  | [], [] => true
  | n :: s', x :: c' => (x <? n) && inside s' c'
  | _, _ => false
  end.

(** The dimensions in the header of an N5 block. *)
Definition n5_dims (file : bytes) : list N :=
  map (fun i => value_be (slice file (4 + 4 * N.of_nat i) 4)) (seq 0 (N.to_nat (value_be (slice file 2 2)))).

(** An N5 block: mode 0, number of dimensions, the dimensions (all big endian), the
    compressed big endian elements, first axis fastest.  [pos] in C order. *)
Definition n5_block (A : described) (file : bytes) (pos : shape) : option (list N) :=
  let mode := value_be (slice file 0 2) in
  let nd := value_be (slice file 2 2) in
  let dims := n5_dims file in
  if (4 + 4 * nd <=? lenN file) && (mode =? 0) && inside dims (rev pos) then
    match de_decode A (skipn (N.to_nat (4 + 4 * nd)) file) (prod dims * de_width A) with
    | Some raw =>
        if lenN raw =? prod dims * de_width A
        then Some (rev (slice raw (colmajor dims (rev pos) * de_width A) (de_width A)))
        else None
    | None => None
    end
  else None.

(** The element at [pos] of the inner chunk [c] in a shard with [per] chunks along each
    axis: the file ends with the index, 16 bytes (offset, size, little endian) per
    chunk in C order, and its CRC-32C; offset and size 2^64 - 1 is a missing chunk. *)
Definition shard_block (A : described) (per : shape) (file : bytes) (c pos : shape) : option (list N) :=
  let footer := 16 * prod per + 4 in
  if footer <=? lenN file then
    let index := slice file (lenN file - footer) (16 * prod per) in
    if value_le (slice file (lenN file - 4) 4) =? crc32c_spec index then
      let k := rowmajor per (map2 N.modulo c per) in
      let off := value_le (slice index (16 * k) 8) in
      let size := value_le (slice index (16 * k + 8) 8) in
      if (off =? 2 ^ 64 - 1) && (size =? 2 ^ 64 - 1) then Some (de_fill A)
      else if off + size <=? lenN file then zarr_block A (slice file off size) pos
      else None
    else None
  else None.

(** Entry [k] of the index of a shard. *)
Definition shard_entry (per : shape) (file : bytes) (k : N) : N * N :=
  let index := slice file (lenN file - (16 * prod per + 4)) (16 * prod per) in
  (value_le (slice index (16 * k) 8), value_le (slice index (16 * k + 8) 8)).

(** A shard with an intact index: its checksum is right, and every chunk is missing or
    a non-empty range of the bytes before the index. *)
Definition intact_shard (per : shape) (file : bytes) : Prop :=
  16 * prod per + 4 <= lenN file /\
  value_le (slice file (lenN file - 4) 4) =
    crc32c_spec (slice file (lenN file - (16 * prod per + 4)) (16 * prod per)) /\
  forall k, k < prod per -> shard_entry per file k = (2 ^ 64 - 1, 2 ^ 64 - 1) \/
    (0 < snd (shard_entry per file k) /\
     fst (shard_entry per file k) + snd (shard_entry per file k) <= lenN file - (16 * prod per + 4)).

(** The element at [x]; [None]: the file of its chunk is damaged. *)
Definition element_at (A : described) (files : string -> option bytes) (x : shape) : option (list N) :=
  let c := map2 N.div x (de_chunks A) in
  let pos := map2 N.modulo x (de_chunks A) in
  match de_layout A with
  | Zarr2 sep =>
      match files (zarr_name false sep c) with
      | None => Some (de_fill A)
      | Some file => zarr_block A file pos
      end
  | Zarr3 prefix sep =>
      match files (zarr_name prefix sep c) with
      | None => Some (de_fill A)
      | Some file => zarr_block A file pos
      end
  | Zarr3Sharded prefix sep shard =>
      let per := map2 N.div shard (de_chunks A) in
      match files (zarr_name prefix sep (map2 N.div c per)) with
      | None => Some (de_fill A)
      | Some file => shard_block A per file c pos
      end
  | N5 =>
      match files (n5_name c) with
      | None => Some (de_fill A)
      | Some file => n5_block A file pos
      end
  end.
