(** Properties C23-C26: chunk serialisation. *)
From Verif Require Import M_Base M_Bytes M_N5Header M_Format S_Array S_Bytes S_Format P_Format.

(** C23, zarr: a chunk with an element different from the fill value is stored and
    reads back exactly, whatever the output buffer held before. *)
Theorem C23_zarr_roundtrip t cd fill defshape bshape data :
  0 < t_width t -> lossless (prod defshape * t_width t) cd -> prod defshape * t_width t < W64 -> prod defshape < W64 ->
  buffer_of (t_width t) (prod defshape) data ->
  (Forall (fun v => elem_eq t v fill = true) data ->
   data_to_buffer true t cd fill defshape bshape data false 0 = Ok None) /\
  (~ Forall (fun v => elem_eq t v fill = true) data ->
   exists b, data_to_buffer true t cd fill defshape bshape data false 0 = Ok (Some b) /\
     forall out, buffer_of (t_width t) (prod defshape) out ->
       buffer_to_data true t cd defshape b out = Ok (false, data)).
Proof. exact (@zarr_roundtrip t cd fill defshape bshape data). Qed.
Print Assumptions C23_zarr_roundtrip.

(** C23, n5: the same for the clipped chunk shape, for shapes an n5 header can hold. *)
Theorem C23_n5_roundtrip t cd fill defshape bshape data :
  0 < t_width t -> lossless (prod bshape * t_width t) cd -> header_ok bshape 0 ->
  prod bshape * t_width t < W64 -> prod bshape < W64 ->
  buffer_of (t_width t) (prod bshape) data ->
  (Forall (fun v => elem_eq t v fill = true) data ->
   data_to_buffer false t cd fill defshape bshape data false 0 = Ok None) /\
  (~ Forall (fun v => elem_eq t v fill = true) data ->
   exists b, data_to_buffer false t cd fill defshape bshape data false 0 = Ok (Some b) /\
     forall out, buffer_of (t_width t) (prod bshape) out ->
       buffer_to_data false t cd defshape b out = Ok (false, data)).
Proof. exact (@n5_roundtrip t cd fill defshape bshape data). Qed.
Print Assumptions C23_n5_roundtrip.

(** Two 16 bit elements, the second not the fill value; a toy codec that prefixes
    one byte and rejects large inputs. *)
Definition toy_codec : codec :=
  Codec false (fun b => if lenN b <=? 100 then Ok (7 :: b) else Throw ERuntime) (fun b cap => if lenN (tl b) <=? cap then Ok (tl b) else Throw ERuntime).

Example C23_case :
  lossless 4 toy_codec /\ header_ok [1; 2] 0 /\
  buffer_of 2 (prod [1; 2]) [[0; 0]; [3; 1]] /\
  ~ Forall (fun v => elem_eq (ElemType 2 false) v [0; 0] = true) [[0; 0]; [3; 1]] /\
  data_to_buffer false (ElemType 2 false) toy_codec [0; 0] [4; 4] [1; 2] [[0; 0]; [3; 1]] false 0 =
    Ok (Some [0; 0; 0; 2; 0; 0; 0; 2; 0; 0; 0; 1; 7; 0; 0; 1; 3]).
Proof.
  repeat split; try (repeat constructor; fail).
  - right. intros b _ H0 H. cbn. destruct (N.leb_spec (lenN b) 100); [|lia]. eexists. split; [reflexivity|]. cbn. rewrite N.leb_refl. reflexivity.
  - intros H. inversion H as [|? ? _ H2]. inversion H2 as [|? ? H3 _]. vm_compute in H3. discriminate.
Qed.

(** C24, zarr: decoding arbitrary bytes throws or stays inside a buffer of the
    chunk's size. *)
Theorem C24_zarr_decode_safe t cd defshape b out : safe_codec (t_width t) cd -> Forall is_byte b ->
  prod defshape < W64 -> buffer_of (t_width t) (prod defshape) out ->
  (exists out', buffer_to_data true t cd defshape b out = Ok (false, out') /\
     buffer_of (t_width t) (prod defshape) out') \/
  exists e, buffer_to_data true t cd defshape b out = Throw e.
Proof. exact (@zarr_decode_safe t cd defshape b out). Qed.
Print Assumptions C24_zarr_decode_safe.

(** C24, n5: only if the element count in the header does not exceed the caller's
    buffer.  Missing from the full claim: buffer_to_data never compares the two. *)
Theorem C24_n5_decode_safe_partial t cd defshape b m out : safe_codec (t_width t) cd -> Forall is_byte b ->
  buffer_of (t_width t) m out ->
  (forall vl n h, read_n5_header b = Ok (vl, n, h) -> n <= m) ->
  (exists vl out', buffer_to_data false t cd defshape b out = Ok (vl, out') /\
     buffer_of (t_width t) m out') \/
  exists e, buffer_to_data false t cd defshape b out = Throw e.
Proof. exact (@n5_decode_safe t cd defshape b m out). Qed.
Print Assumptions C24_n5_decode_safe_partial.

Example C24_case :
  safe_codec 1 raw_codec /\ Forall is_byte [0; 0; 0; 1; 0; 0; 0; 2; 9; 9] /\
  buffer_of 1 3 [[1]; [2]; [3]] /\
  read_n5_header [0; 0; 0; 1; 0; 0; 0; 2; 9; 9] = Ok (false, 2, 8) /\
  buffer_to_data false (ElemType 1 false) raw_codec [3] [0; 0; 0; 1; 0; 0; 0; 2; 9; 9] [[1]; [2]; [3]]
    = Ok (false, [[9]; [9]; [3]]).
Proof. repeat split; try (repeat constructor; fail). Qed.

(** C24 fails for n5 in general: a stored chunk with a larger count in its header
    (corrupt, or an edge chunk stored at the full chunk shape) is written past the
    end of a buffer of the chunk's size. *)
Theorem C24_n5_decode_refuted :
  exists b, Forall is_byte b /\
    buffer_to_data false (ElemType 1 false) raw_codec [4] b [[0]; [0]; [0]; [0]] = UB /\
    exists b', Forall is_byte b' /\
      (* stored at the full chunk shape [4] by another writer, read into a buffer of
         the clipped edge chunk's 2 elements *)
      b' = [0; 0; 0; 1; 0; 0; 0; 4; 1; 2; 3; 4] /\
      buffer_to_data false (ElemType 1 false) raw_codec [4] b' [[0]; [0]] = UB.
Proof.
  exists [0; 0; 0; 1; 0; 0; 0; 9; 1; 1; 1; 1; 1; 1; 1; 1; 1].
  split; [repeat constructor|]. split; [reflexivity|].
  eexists. split; [|split; reflexivity]. repeat constructor.
Qed.
Print Assumptions C24_n5_decode_refuted.

(** C25: varlen chunks keep their k elements; the rest of the buffer is untouched. *)
Theorem C25_varlen_roundtrip t cd fill defshape bshape data k :
  0 < t_width t -> lossless (k * t_width t) cd -> header_ok bshape k -> prod bshape < W64 ->
  k * t_width t < W64 -> buffer_of (t_width t) k data -> 0 < k ->
  exists b, data_to_buffer false t cd fill defshape bshape data true k = Ok (Some b) /\
    forall m out, buffer_of (t_width t) m out -> k <= m ->
      exists rest, buffer_to_data false t cd defshape b out = Ok (true, data ++ rest) /\
        out = firstn (N.to_nat k) out ++ rest.
Proof. exact (@n5_varlen_roundtrip t cd fill defshape bshape data k). Qed.
Print Assumptions C25_varlen_roundtrip.

Example C25_case :
  lossless 3 toy_codec /\ header_ok [2] 3 /\ buffer_of 1 3 [[5]; [6]; [7]] /\
  data_to_buffer false (ElemType 1 false) toy_codec [0] [2] [2] [[5]; [6]; [7]] true 3 =
    Ok (Some [0; 1; 0; 1; 0; 0; 0; 2; 0; 0; 0; 3; 7; 5; 6; 7]).
Proof.
  repeat split; try (repeat constructor; fail).
  right. intros b _ H0 H. cbn. destruct (N.leb_spec (lenN b) 100); [|lia]. eexists. split; [reflexivity|]. cbn. rewrite N.leb_refl. reflexivity.
Qed.

(** C26: for integer types an elided chunk consisted of fill values only, bit by
    bit. *)
Theorem C26_elided_exact_partial t (zarr : bool) cd fill defshape bshape data n :
  t_float t = false -> lenN fill = t_width t -> Forall is_byte fill ->
  n = prod (if zarr then defshape else bshape) -> n < W64 ->
  buffer_of (t_width t) n data ->
  data_to_buffer zarr t cd fill defshape bshape data false 0 = Ok None ->
  data = repeat fill (N.to_nat n).
Proof. exact (@elided_exact t zarr cd fill defshape bshape data n). Qed.
Print Assumptions C26_elided_exact_partial.

Example C26_case :
  buffer_of 2 (prod [2]) [[5; 0]; [5; 0]] /\
  data_to_buffer true (ElemType 2 false) raw_codec [5; 0] [2] [2] [[5; 0]; [5; 0]] false 0 = Ok None.
Proof. repeat split; repeat constructor. Qed.

(** C26 fails for floating point: a chunk of -0.0f is dropped when the fill value
    is 0.0f. *)
Theorem C26_elided_float_refuted :
  supported (ElemType 4 true) /\
  data_to_buffer true (ElemType 4 true) raw_codec [0; 0; 0; 0] [1] [1] [[0; 0; 0; 128]] false 0 = Ok None /\
  [[0; 0; 0; 128]] <> repeat [0; 0; 0; 0] 1.
Proof. repeat split; try discriminate. right. cbn. auto. Qed.
Print Assumptions C26_elided_float_refuted.
