(** Properties C10 - C14: endianness, n5 chunk headers, little endian integers. *)
From Verif Require Import M_Base S_Array S_Bytes M_Bytes M_N5Header P_Base P_Bytes.

(** C10: reversing twice is the identity. *)
Theorem C10_endian_involutive es : reverse_endian (reverse_endian es) = es.
Proof. exact (@endian_involutive es). Qed.
Print Assumptions C10_endian_involutive.

(** C10: each element is reversed on its own: the big endian value of the new
    element is the little endian value of the old one. *)
Theorem C10_endian_elementwise es i e : getN es i = Ok e ->
  lenN (reverse_endian es) = lenN es /\
  exists e', getN (reverse_endian es) i = Ok e' /\ length e' = length e /\
    value_be e' = value_le e /\ value_le e' = value_be e.
Proof. exact (@endian_elementwise es i e). Qed.
Print Assumptions C10_endian_elementwise.

(** C10, seen from memory: byte j of element i becomes byte w-1-j of element i. *)
Theorem C10_endian_memory w (es : list bytes) i j :
  Forall (fun e => lenN e = w) es -> i < lenN es -> j < w ->
  getN (concat (reverse_endian es)) (i * w + j) = getN (concat es) (i * w + (w - 1 - j)).
Proof. exact (@endian_bytes w es i j). Qed.
Print Assumptions C10_endian_memory.

Example C10_case :
  let es := [[1; 2; 3; 4]; [5; 6; 7; 8]] in
  reverse_endian es = [[4; 3; 2; 1]; [8; 7; 6; 5]] /\ getN es 1 = Ok [5; 6; 7; 8] /\
  Forall (fun e => lenN e = 4) es.
Proof. repeat split; repeat constructor. Qed.

(** C11: header round trip for arbitrary payloads. *)
Theorem C11_n5_header_roundtrip sh vl v payload : header_ok sh v -> prod sh < W64 ->
  read_n5_header (write_n5_header sh vl v ++ payload) =
    Ok (vl, if vl then v else prod sh, lenN (write_n5_header sh vl v)).
Proof. exact (@n5_header_roundtrip sh vl v payload). Qed.
Print Assumptions C11_n5_header_roundtrip.

(** C11: the header queries of the file system store see the same shape, varlen
    flag and varlen size. *)
Theorem C11_n5_header_queries sh vl v payload : header_ok sh v ->
  read_shape_from_header (write_n5_header sh vl v ++ payload) = Ok sh /\
  read_varlen_from_header (write_n5_header sh vl v ++ payload) = Ok (if vl then Some v else None).
Proof. exact (@n5_header_shape_roundtrip sh vl v payload). Qed.
Print Assumptions C11_n5_header_queries.

Example C11_case : header_ok [300; 2; 70000] 4000000000 /\ prod [300; 2; 70000] < W64 /\
  write_n5_header [300; 2; 70000] true 4000000000 =
    [0;1; 0;3; 0;1;17;112; 0;0;0;2; 0;0;1;44; 238;107;40;0].
Proof. repeat split; repeat constructor. Qed.

(** C12: arbitrary bytes. *)
Theorem C12_n5_header_safe b :
  (exists vl sz h, read_n5_header b = Ok (vl, sz, h) /\ h <= lenN b) \/
  read_n5_header b = Throw ERuntime.
Proof. exact (@n5_header_safe b). Qed.
Print Assumptions C12_n5_header_safe.

Theorem C12_truncated_header_rejected sh vl v p : header_ok sh v -> prod sh < W64 ->
  strict_prefix p (write_n5_header sh vl v) -> read_n5_header p = Throw ERuntime.
Proof. exact (@n5_header_prefix_rejected sh vl v p). Qed.
Print Assumptions C12_truncated_header_rejected.

Example C12_case : header_ok [4; 6] 0 /\ strict_prefix [0; 0; 0; 2; 0; 0; 0; 6; 0] (write_n5_header [4; 6] false 0).
Proof. split; [repeat split; repeat constructor|]. vm_compute. exists 0, [0; 4]. reflexivity. Qed.

(** C12: the separate header queries of the file system store do not check for
    the end of the file; on truncated chunks they use uninitialised variables. *)
Theorem C12_header_queries_refuted :
  exists sh v p, header_ok sh v /\ strict_prefix p (write_n5_header sh true v) /\
    read_varlen_from_header p = UB /\ read_shape_from_header p = UB.
Proof. exact n5_stream_header_unsafe. Qed.
Print Assumptions C12_header_queries_refuted.

(** C13 is false: extents are truncated to 32 bit. *)
Theorem C13_large_extent_refuted :
  exists sh payload, Forall (fun n => n < W64) sh /\ prod sh < W64 /\
    read_n5_header (write_n5_header sh false 0 ++ payload) <>
      Ok (false, prod sh, lenN (write_n5_header sh false 0)).
Proof. exact n5_header_large_refuted. Qed.
Print Assumptions C13_large_extent_refuted.
Theorem C13_large_varlen_refuted :
  exists v payload, v < W64 /\
    read_n5_header (write_n5_header [2] true v ++ payload) <>
      Ok (true, v, lenN (write_n5_header [2] true v)).
Proof. exact n5_header_varlen_refuted. Qed.
Print Assumptions C13_large_varlen_refuted.

(** C61 is false: readChunk and checkVarlenChunk disagree on mode values > 1. *)
Theorem C61_varlen_flag_refuted :
  exists b n, read_n5_header b = Ok (false, 6, 12) /\ read_varlen_from_header b = Ok (Some n).
Proof. exact n5_mode_disagree. Qed.
Print Assumptions C61_varlen_flag_refuted.

(** C61 for mode bytes 0 and 1 (all this library writes). *)
Theorem C61_varlen_flag_partial b vl sz h m : read_n5_header b = Ok (vl, sz, h) ->
  firstn 2 b = [0; m] -> m <= 1 ->
  read_varlen_from_header b = Ok (if vl then Some sz else None).
Proof. exact (@varlen_flag_agree b vl sz h m). Qed.
Print Assumptions C61_varlen_flag_partial.

Example C61_case : read_n5_header [0;1; 0;1; 0;0;0;9; 0;0;0;5] = Ok (true, 5, 12) /\
  firstn 2 [0;1; 0;1; 0;0;0;9; 0;0;0;5] = [0; 1] /\ 1 <= 1.
Proof. repeat split. lia. Qed.

(** C14: little endian integers, written anywhere into a buffer. *)
Theorem C14_le64_roundtrip v a r : v < 2 ^ 64 ->
  length (write_le64 v) = 8%nat /\ all_bytes (write_le64 v) /\
  read_le64 (a ++ write_le64 v ++ r) (lenN a) = Ok v.
Proof. exact (@le64_roundtrip v a r). Qed.
Print Assumptions C14_le64_roundtrip.
Theorem C14_le32_roundtrip v a r : v < 2 ^ 32 ->
  length (write_le32 v) = 4%nat /\ all_bytes (write_le32 v) /\
  read_le32 (a ++ write_le32 v ++ r) (lenN a) = Ok v.
Proof. exact (@le32_roundtrip v a r). Qed.
Print Assumptions C14_le32_roundtrip.
Theorem C14_le64_bytes bs : all_bytes bs -> length bs = 8%nat ->
  exists v, read_le64 bs 0 = Ok v /\ v = value_le bs /\ v < 2 ^ 64 /\ write_le64 v = bs.
Proof. exact (@le64_bytes bs). Qed.
Print Assumptions C14_le64_bytes.
Theorem C14_le32_bytes bs : all_bytes bs -> length bs = 4%nat ->
  exists v, read_le32 bs 0 = Ok v /\ v = value_le bs /\ v < 2 ^ 32 /\ write_le32 v = bs.
Proof. exact (@le32_bytes bs). Qed.
Print Assumptions C14_le32_bytes.

Example C14_case : write_le64 0x1122334455667788 = [0x88; 0x77; 0x66; 0x55; 0x44; 0x33; 0x22; 0x11] /\
  read_le32 [9; 0xDD; 0xCC; 0xBB; 0xAA] 1 = Ok 0xAABBCCDD.
Proof. split; reflexivity. Qed.
